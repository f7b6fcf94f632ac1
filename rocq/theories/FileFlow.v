(** * FileFlow: creating, completing and reopening a file *)

From Coq Require Import String Sorted Permutation.
From Verif Require Import Base Prim Values Records LinkedData StrHash IntMap Strings AStream BufStream State StateTac
  FileImage ApiCore ApiFile ApiWrite ApiRead Api FileFacts BlockFacts StreamFacts OpenFacts DicInv WriteInv WriteSteps Journal WriteCalls WriteTrace.
Open Scope Z_scope.
Open Scope list_scope.

(** ** What a writing session has collected *)

Definition texts_of (d : dic) : list (str * Z) := match d_texts d with Some l => l | None => [] end.
Definition contents_of (d : dic) : contents :=
  mkC (d_names d) (List.map fst (d_uels d)) (List.map fst (texts_of d)) (d_acros d) (List.map fst (d_dstrs d)).

(** No counter exceeds the 32 bits it has in the file. *)
Definition counters_fit (d : dic) : Prop :=
  sym_count d <= INT_MAX /\ uel_count d <= INT_MAX /\ zlen (texts_of d) <= INT_MAX /\
  zlen (d_acros d) <= INT_MAX /\ zlen (d_dstrs d) <= INT_MAX /\
  Forall (fun e => sy_count (snd e) <= INT_MAX /\ sy_errs (snd e) <= INT_MAX /\ zlen (sy_comments (snd e)) <= INT_MAX) (d_names d).

Lemma dec_digits_ok : forall k n, 0 <= n -> str_ok (dec_digits k n).
Proof.
  induction k as [| k IH]; intros n P; cbn [dec_digits]; [constructor|].
  apply Forall_app. split.
  - destruct (n <? 10); [constructor|]. apply IH. apply Z.div_pos; lia.
  - constructor; [|constructor]. pose proof (Z.mod_pos_bound n 10 ltac:(lia)). unfold char_ok. lia.
Qed.
Lemma int_str_ok : forall n, str_ok (int_str n).
Proof.
  intros n. unfold int_str. destruct (Z.ltb_spec n 0).
  - constructor; [unfold char_ok; lia|]. apply dec_digits_ok. lia.
  - apply dec_digits_ok. lia.
Qed.
Lemma str_ok_test : forall l, forallb (fun c => (1 <=? c) && (c <? 256)) l = true -> str_ok l.
Proof. intros l H. rewrite forallb_forall in H. apply Forall_forall. intros c I. specialize (H c I). unfold char_ok. lia. Qed.
Lemma acro_saved_ok : forall a, str_ok (ac_name a) -> str_ok (acro_saved_name a).
Proof.
  intros a H. unfold acro_saved_name. destruct (ac_name a); [|exact H].
  apply Forall_app. split; [|apply int_str_ok]. apply str_ok_test. reflexivity.
Qed.

Lemma ref_ok_int : forall n x, n <= INT_MAX -> ref_ok n x -> int_ok x.
Proof. intros n x L [H|H]; [exact H|]. unfold int_ok, INT_MIN. lia. Qed.

Lemma zlen_map : forall {A B} (f : A -> B) l, zlen (List.map f l) = zlen l.
Proof. intros. unfold zlen. rewrite map_length. reflexivity. Qed.

Lemma wf_contents_of : forall np d, dinv np d -> np < 2^63 -> dic_fits d = true -> counters_fit d -> wf_contents (contents_of d).
Proof.
  intros np d [DN DU DT DA DD _ _ _ _] NP FT (C1 & C2 & C3 & C4 & C5 & C6).
  unfold dic_fits in FT. rewrite !Bool.andb_true_iff in FT. destruct FT as ((((_ & _) & _) & FA) & _).
  unfold contents_of. constructor; cbn [c_syms c_uels c_texts c_acros c_dstrs]; unfold fits_int; rewrite ?zlen_map; try assumption.
  - rewrite Forall_forall in *. intros e I. destruct (DN e I) as [T []]. destruct (C6 e I) as (X1 & X2 & X3). split; [exact T|].
    assert (RO : forall n o, n <= INT_MAX -> refs_ok n (sy_dim (snd e)) o -> dims_ok (snd e) o).
    { intros n [l|] L; cbn; [|auto]. intros [A B]. split; [exact A|]. eapply Forall_impl; [|exact B]. intros x. apply ref_ok_int. exact L. }
    assert (P : i64_ok (sy_pos (snd e))). { destruct sw_pos as [P|P]; [exact P|]. unfold i64_ok in *. lia. }
    unfold sym_ok. split; [exact sw_dim|]. split; [exact P|]. split; [exact sw_type|]. split; [exact (ref_ok_int _ _ C1 sw_uinfo)|].
    split; [unfold int_ok; lia|]. split; [unfold int_ok; lia|]. split; [exact sw_expl|].
    split; [exact (RO _ _ C1 sw_doms)|]. split; [exact (RO _ _ C5 sw_dstrs)|]. split; [exact sw_coms|exact X3].
  - rewrite Forall_map. exact DU.
  - rewrite Forall_map. unfold texts_of. destruct DT as (l & -> & F & _). exact F.
  - unfold texts_of. destruct DT as (l & -> & _ & N). exact N.
  - rewrite forallb_forall in FA. rewrite Forall_forall in *. intros a I. destruct (DA a I) as (A1 & A2 & A3).
    specialize (FA a I). apply Bool.andb_true_iff in FA. unfold fits in FA. destruct FA as [F1 F2].
    split; [split; [apply acro_saved_ok; exact A1|lia]|]. split; [split; [exact A2|lia]|exact A3].
  - rewrite Forall_map. exact DD.
Qed.

Section Z.
Context (z : zlib).
Notation winv := (winv z).

(** ** Creating *)

Definition new_head (prod : str) (compr : Z) : fhead := mkH (compr mod 2) auditLine prod.
Definition new_base (prod : str) (compr : Z) : list Z := enc_head (z_host z) (new_head prod compr) ++ index_room.

Lemma fresh_strm : forall name prod compr st, f_strm (g_fil (fresh_session z name prod compr st)) = Some (as_open []).
Proof. intros name prod compr [mo aft env [] dic er wr sl]. vm_compute. reflexivity. Qed.
Lemma obind_done : forall {A B} (a : A) (k : A -> outcome B), obind (Done a) k = k a.
Proof. reflexivity. Qed.
Lemma strm_ws : forall s ops X, f_strm (g_fil (ws s ops X)) = Some s.
Proof. reflexivity. Qed.
Lemma s_write_ws : forall bs s ops s' X, as_write bs s = Some s' -> s_write bs (ws s ops X) = Done (ws s' (OWrite bs :: ops) X).
Proof. intros bs s ops s' X E. unfold s_write. rewrite strm_ws, E, ws_log. reflexivity. Qed.
Lemma s_getpos_ws : forall s ops p s' X, as_getpos z s = Some (p, s') -> s_getpos z (ws s ops X) = Done (p, ws s' (OGetPos :: ops) X).
Proof. intros s ops p s' X E. unfold s_getpos. rewrite strm_ws, E, ws_log. reflexivity. Qed.
Lemma s_setpos_ws : forall p s ops X, 0 <= p -> s_setpos z p (ws s ops X) = Done (ws (as_setpos z p s) (OSetPos p :: ops) X).
Proof. intros p s ops X P. unfold s_setpos. rewrite strm_ws. destruct (Z.ltb_spec p 0); [lia|]. rewrite ws_log. reflexivity. Qed.
Lemma s_setcomp_ws : forall c s ops X, s_setcomp z c (ws s ops X) = Done (ws (as_setcomp z c s) (OSetComp c :: ops) X).
Proof. intros c s ops X. unfold s_setcomp. rewrite strm_ws, ws_log. reflexivity. Qed.
Lemma open_write_eq : forall name prod compr st r st', open_write z name prod compr st = Done (r, st') -> r_code r = 1 ->
  g_mode st = f_not_open /\ name <> [] /\ zlen prod <= 255 /\
  (do st <- s_write (enc_head (z_host z) (new_head prod compr)) (fresh_session z name prod (compr mod 2) st) ;;
   do (mip, st) <- s_getpos z st ;;
   do st <- s_write index_room st ;;
   do (nwp, st) <- s_getpos z st ;;
   Done (ret_i 1 [0], ready_session mip nwp st)) = Done (r, st').
Proof.
  intros name prod compr st r st' H RC. unfold open_write in H.
  assert (IF : forall {A} (a b : A), (if negb true then a else b) = b) by reflexivity.
  destruct (mode_in (g_mode st) [f_not_open]) eqn:MI; [rewrite IF in H|injection H as <- <-; discriminate RC].
  apply mode_in_true in MI. destruct MI as [MI|[]]. split; [symmetry; exact MI|].
  destruct name as [| ch name]; [injection H as <- <-; discriminate RC|]. split; [discriminate|].
  unfold create_file, write_string in H. destruct (Z.leb_spec (zlen prod) 255) as [PL|PL]; [|discriminate H].
  split; [exact PL|]. rewrite obind_done in H. exact H.
Qed.
Lemma open_write_ok : forall name prod compr st r st', str_ok prod ->
  open_write z name prod compr st = Done (r, st') -> r_code r = 1 ->
  winv (new_head prod compr) (new_base prod compr) (mkG [] GIdle) st' /\ jrel new_journal (mkG [] GIdle) st' /\
  g_mode st = f_not_open /\ name <> [] /\ f_name (g_fil st') = name /\ e_disk (g_env st') = e_disk (g_env st) /\
  d_maptext (g_dic st') = d_maptext (g_dic st) /\ r = ret_i 1 [0].
Proof.
  intros nm prod compr st r st' PO H RC. destruct (open_write_eq _ _ _ _ _ _ H RC) as (MI & NE & PL & H'). clear H. rename H' into H.
  remember (fresh_session z nm prod (compr mod 2) st) as X eqn:EX in H.
  assert (WB : writing [] false [] (as_open [])).
  { exists []. repeat split. right. split; [reflexivity|]. eexists. reflexivity. }
  assert (FX : f_strm (g_fil X) = Some (as_open [])) by (rewrite EX; apply fresh_strm).
  rewrite (ws_self X _ FX) in H. set (ops0 := f_ops (g_fil X)) in H. clearbody ops0.
  remember (enc_head (z_host z) (new_head prod compr)) as h0 eqn:EH in H. remember (new_base prod compr) as nb eqn:EB.
  assert (BE : h0 ++ index_room = nb) by (rewrite EH, EB; reflexivity).
  destruct (write_writing _ _ _ _ h0 WB) as (s1 & E1 & W1). rewrite (s_write_ws _ _ _ _ _ E1), obind_done in H.
  destruct (getpos_writing z _ _ _ _ W1) as (s2 & E2 & _ & _ & W2 & _). specialize (W2 eq_refl). rewrite (s_getpos_ws _ _ _ _ _ E2), obind_done in H.
  destruct (write_writing _ _ _ _ index_room W2) as (s3 & E3 & W3). rewrite (s_write_ws _ _ _ _ _ E3), obind_done in H.
  destruct (getpos_writing z _ _ _ _ W3) as (s4 & E4 & OB & _ & W4 & _). specialize (W4 eq_refl). rewrite (s_getpos_ws _ _ _ _ _ E4), obind_done in H.
  cbn [app phys] in *. rewrite BE in *.
  injection H as <- <-. rewrite EX. clear EX FX X.
  match goal with |- context [ws s4 ?o _] => generalize o; intros ops1 end.
  destruct st as [mo aft env fil dic er wr sl].
  match goal with |- context [ready_session ?a ?b ?c] =>
    let T := eval cbv delta [ready_session fresh_session reset_special ws open_stream forget_cur init_errors] in (ready_session a b c) in let Y := st_eval T in
    assert (EX' : ready_session a b c = Y) by (vm_cast_no_check (@eq_refl gst Y)); rewrite EX'; clear EX' end.
  clear RC.
  split; [|split; [|split; [exact MI|split; [exact NE|]]]].
  - split.
    + constructor.
      * reflexivity.
      * exists index_room. split; [rewrite <- BE, EH; reflexivity|]. unfold zlen; cbn; lia.
      * cbn [g_fil f_mip]. rewrite EH. reflexivity.
      * split; [|split; [|split]].
        { unfold new_head. cbn [h_compr]. pose proof (Z.mod_pos_bound compr 2 ltac:(lia)). unfold int_ok, INT_MIN, INT_MAX. lia. }
        { cbn [new_head h_sysid]. split; [|vm_compute; discriminate]. apply str_ok_test. reflexivity. }
        { split; assumption. }
        { reflexivity. }
      * reflexivity.
      * repeat split.
      * constructor; try constructor; try reflexivity.
        { exists [([], 0)]. split; [reflexivity|]. split; [|repeat constructor; auto].
          constructor; [|constructor]. split; [constructor|unfold zlen; cbn; lia]. }
        { cbn. apply im_new_inv. }
        { intros k. left. cbn [g_dic d_usr]. unfold im_get, im_new, znth. cbn [im_cells]. destruct (k <? 0); [reflexivity|]. destruct (Z.to_nat k); reflexivity. }
      * constructor.
      * reflexivity.
      * cbn. lia.
    + split; [left; reflexivity|]. exists s4. split; [reflexivity|exact OB].
  - constructor; [reflexivity|constructor|]. split; reflexivity.
  - repeat split.
Qed.


(** ** Completing the file *)

(** The stream is at the end of [base], with compression [c]. *)
Definition ends (base : list Z) (c : bool) (s : astream) : Prop :=
  exists b p, base = b ++ p /\ writing b c p s /\ (c = true -> p = []).

Lemma ends_start : forall base c s, on_base z base s -> ends base c (as_setpos z (zlen base) (as_setcomp z c s)).
Proof.
  intros base c s O. exists base, []. split; [symmetry; apply app_nil_r|]. split; [|auto].
  pose proof (setpos_writing z base _ (on_base_setcomp z base c s O)) as W. rewrite setcomp_comp in W. exact W.
Qed.

Lemma ends_setcomp : forall base c s, ends base c s -> ends base c (as_setcomp z c s).
Proof.
  intros base c s (b & p & -> & W & N). exists b, p. split; [reflexivity|]. split; [|exact N].
  destruct W as (tail & F & P & C & M). unfold as_setcomp. rewrite C. destruct c.
  - specialize (N eq_refl). subst p. cbn [orb]. destruct M as [M|[_ [bb M]]].
    + unfold as_flush. rewrite M, C. cbn [as_comp Bool.eqb phys]. exists tail.
      cbn [as_file as_pos as_comp as_mode pwrite zlen length]. rewrite F, P.
      change (phys z true []) with (@nil Z). cbn [pwrite]. split; [reflexivity|]. split; [unfold zlen; cbn; lia|]. split; [reflexivity|]. right. split; [reflexivity|]. eexists. reflexivity.
    + unfold as_flush. rewrite M, C. cbn [Bool.eqb]. exists tail. repeat (split; [assumption|]). right. split; [reflexivity|]. eexists. exact M.
  - cbn [orb]. rewrite C. cbn [Bool.eqb]. exists tail. repeat (split; [assumption|]). exact M.
Qed.

Lemma ends_write : forall base c s bs, ends base c s ->
  exists s', as_write bs s = Some s' /\
    (exists tail, as_final z s' = base ++ phys z c bs ++ tail) /\ as_comp s' = c /\ (exists q, as_mode s' = AWr q) /\
    exists s'', as_getpos z s' = Some (zlen (base ++ phys z c bs), s'') /\ ends (base ++ phys z c bs) c s''.
Proof.
  intros base c s bs (b & p & -> & W & N). destruct (write_writing _ _ _ _ bs W) as (s' & E & W'). exists s'.
  assert (PH : b ++ phys z c (p ++ bs) = (b ++ p) ++ phys z c bs).
  { destruct c; [rewrite (N eq_refl)|]; cbn [phys app]; rewrite ?app_nil_r, ?app_assoc; reflexivity. }
  split; [exact E|]. split. { destruct (writing_final z _ _ _ _ W') as [t T]. exists t. rewrite T. rewrite !app_assoc in *. rewrite PH. reflexivity. }
  split. { destruct W' as (? & _ & _ & C & _). exact C. }
  split. { unfold as_write in E. destruct (as_mode s); try discriminate; injection E as <-; eexists; reflexivity. }
  destruct (getpos_writing z _ _ _ _ W') as (s'' & G & _ & _ & WF & WT). exists s''. rewrite PH in *. split; [exact G|].
  destruct c.
  - exists ((b ++ p) ++ phys z true bs), []. split; [symmetry; apply app_nil_r|]. split; [apply WT; reflexivity|auto].
  - exists b, (p ++ bs). split; [cbn [phys]; rewrite app_assoc; reflexivity|]. split; [apply WF; reflexivity|discriminate].
Qed.

Lemma patch_write : forall s F q p bs, as_final z s = F -> as_mode s = AWr q -> exists s',
  as_write bs (as_setcomp z false (as_setpos z p s)) = Some s' /\ as_final z s' = pwrite F p bs.
Proof.
  intros s F q p bs E M. unfold as_final, as_flush in E. rewrite M in E. cbn [as_file] in E.
  unfold as_setpos, as_flush. rewrite M. cbn [as_mode as_file as_comp as_pos].
  assert (X : as_setcomp z false {| as_file := pwrite (as_file s) (as_pos s) (phys z (as_comp s) q); as_pos := p; as_comp := as_comp s; as_mode := AIdle (true || as_comp s) |}
    = mkAS F p false (AIdle true)).
  { rewrite E. unfold as_setcomp, as_flush. cbn [as_mode as_file as_comp as_pos orb]. destruct (as_comp s); reflexivity. }
  rewrite X. eexists. split; [reflexivity|]. reflexivity.
Qed.

Lemma phys_at_patch : forall hd a b r p l, phys_at (hd ++ a ++ r) p l -> length a = length b -> zlen (hd ++ a) <= p ->
  phys_at (hd ++ b ++ r) p l.
Proof.
  intros hd a b r p l (pre & post & E & P) L G. assert (K : firstn (length (hd ++ a)) pre = hd ++ a).
  { transitivity (firstn (length (hd ++ a)) (pre ++ l ++ post)).
    - rewrite firstn_app. replace (length (hd ++ a) - length pre)%nat with O by (unfold zlen in *; lia). cbn [firstn]. rewrite app_nil_r. reflexivity.
    - rewrite <- E, app_assoc, firstn_app, Nat.sub_diag, firstn_all. cbn [firstn]. apply app_nil_r. }
  pose proof (firstn_skipn (length (hd ++ a)) pre) as FS. rewrite K in FS. set (pre' := skipn _ pre) in *. clearbody pre'.
  exists (hd ++ b ++ pre'), post. split.
  - rewrite <- FS in E. rewrite <- !app_assoc in E. apply app_inv_head, app_inv_head in E. rewrite E. rewrite <- !app_assoc. reflexivity.
  - rewrite <- P, <- FS. rewrite !zlen_app. unfold zlen. lia.
Qed.

Lemma phys_at_eq : forall F A P r, F = A ++ P ++ r -> phys_at F (zlen A) P.
Proof. intros F A P r ->. apply phys_at_end. Qed.

Lemma enc_major_length : forall bo m, length (enc_major bo m) = 52%nat.
Proof. intros bo m. unfold enc_major. rewrite !app_length, enc_int_length, !enc_i64_length. reflexivity. Qed.

(** [base2] is [base] with the index filled in. *)
Definition indexed (h : fhead) (m : major) (base base2 : list Z) : Prop :=
  zlen base2 = zlen base /\ (exists rest, base2 = enc_head (z_host z) h ++ enc_major (z_host z) m ++ rest) /\
  forall p l, phys_at base p l -> zlen (enc_head (z_host z) h) + 80 <= p -> phys_at base2 p l.

Lemma finalize_ok : forall h base R st s st', core z h base R st -> f_strm (g_fil st) = Some s -> on_base z base s ->
  finalize z st = Done st' ->
  exists s' ops m base2 tail, st' = ws s' ops st /\ as_final z s' = base2 ++ tail /\ indexed h m base base2 /\
    image z (z_host z) (base2 ++ tail) h m (contents_of (g_dic st)) /\ (mj_nwp m = zlen base /\ mj_symb m = zlen base) /\
    dic_fits (g_dic st) = true /\ (zlen (base2 ++ tail) < 2^63 -> major_ok m).
Proof.
  intros h base R st s st' CO FS O H. unfold finalize in H. cbv zeta in H.
  destruct (dic_fits (g_dic st)) eqn:DF; cbn [negb] in H; [|discriminate].
  destruct CO as [NW HD MP HK CP _ DI _ _ _]. destruct HD as (rest & BE & RL).
  rewrite CP, NW, MP in H.
  remember (g_dic st) as d eqn:ED. rename st into X. rewrite (ws_self X s FS) in H. remember (f_ops (g_fil X)) as ops0 eqn:EO. clear EO.
  remember (is_comp h) as c eqn:EC in *.
  rewrite s_setcomp_ws, obind_done in H. rewrite s_setpos_ws, obind_done in H by apply zlen_nonneg.
  pose proof (ends_start base c s O) as E0.
  match type of H with context [ws (as_setpos z (zlen base) (as_setcomp z c s)) ?o X] => generalize dependent o end. intros o1 H.
  remember (as_setpos z (zlen base) (as_setcomp z c s)) as s0 eqn:ES0. clear ES0.
  fold (texts_of d) in H.
  remember (enc_symbs (z_host z) (d_names d)) as B1 eqn:EB1. remember (enc_texts (z_host z) (List.map fst (texts_of d))) as B2 eqn:EB2.
  remember (enc_uels (z_host z) (List.map fst (d_uels d))) as B3 eqn:EB3. remember (enc_acros (z_host z) (d_acros d)) as B4 eqn:EB4.
  remember (enc_doms (z_host z) (List.map fst (d_dstrs d)) (dom_entries 1 (d_names d))) as B5 eqn:EB5.
  Local Ltac section_step H E0 B :=
    let s1 := fresh "s" in let s2 := fresh "s" in let W := fresh "W" in let G := fresh "G" in let E1 := fresh "E" in
    destruct (ends_write _ _ _ B E0) as (s1 & W & _ & _ & _ & s2 & G & E1);
    rewrite (s_write_ws _ _ _ _ _ W), obind_done in H; rewrite (s_getpos_ws _ _ _ _ _ G), obind_done in H;
    clear W G E0; rewrite s_setcomp_ws, obind_done in H; apply ends_setcomp in E1; rename E1 into E0.
  section_step H E0 B1. section_step H E0 B2. section_step H E0 B3. section_step H E0 B4.
  destruct (ends_write _ _ _ B5 E0) as (s9 & W & [tail T] & _ & [q Q] & _). clear E0.
  rewrite (s_write_ws _ _ _ _ _ W), obind_done in H. rewrite s_setpos_ws, obind_done in H by apply zlen_nonneg.
  rewrite s_setcomp_ws, obind_done in H.
  match type of H with context [enc_major (z_host z) ?m] => remember m as mj eqn:EM end.
  destruct (patch_write s9 _ q (zlen (enc_head (z_host z) h)) (enc_major (z_host z) mj) T Q) as (s' & W' & FI).
  rewrite (s_write_ws _ _ _ _ _ W') in H. injection H as <-. clear W W'.
  match goal with |- context [ws s' ?o X] => generalize o end. intros ops.
  remember (phys z c B1) as P1 eqn:EP1. remember (phys z c B2) as P2 eqn:EP2. remember (phys z c B3) as P3 eqn:EP3.
  remember (phys z c B4) as P4 eqn:EP4. remember (phys z c B5) as P5 eqn:EP5.
  assert (FR : rest = firstn 52 rest ++ skipn 52 rest) by (symmetry; apply firstn_skipn).
  assert (L52 : length (firstn 52 rest) = 52%nat) by (rewrite firstn_length; unfold zlen in RL; lia).
  set (old := firstn 52 rest) in *. set (more := skipn 52 rest) in *. clearbody old more.
  set (hd := enc_head (z_host z) h) in *.
  set (tl := P1 ++ P2 ++ P3 ++ P4 ++ P5 ++ tail).
  assert (F0 : (((((base ++ P1) ++ P2) ++ P3) ++ P4) ++ P5 ++ tail) = hd ++ old ++ more ++ tl).
  { rewrite BE, FR. unfold tl. rewrite <- !app_assoc. reflexivity. }
  assert (ML : length old = length (enc_major (z_host z) mj)) by (rewrite enc_major_length; exact L52).
  assert (F1 : as_final z s' = (hd ++ enc_major (z_host z) mj ++ more) ++ tl).
  { rewrite FI, F0, pwrite_at, <- !app_assoc. f_equal. f_equal.
    rewrite <- ML, skipn_app, skipn_all, Nat.sub_diag. reflexivity. }
  assert (PA : forall p l, phys_at (hd ++ old ++ more ++ tl) p l -> zlen hd + 52 <= p -> phys_at ((hd ++ enc_major (z_host z) mj ++ more) ++ tl) p l).
  { intros p l A B. rewrite <- !app_assoc. eapply phys_at_patch; [exact A|exact ML|]. rewrite zlen_app. unfold zlen at 2. lia. }
  assert (BL : zlen base = zlen hd + zlen rest) by (rewrite BE; apply zlen_app).
  assert (LB : zlen (hd ++ enc_major (z_host z) mj ++ more) = zlen base).
  { rewrite BL, FR, !zlen_app. rewrite (f_equal Z.of_nat ML : zlen old = zlen (enc_major (z_host z) mj)). lia. }
  pose proof (zlen_nonneg P1). pose proof (zlen_nonneg P2). pose proof (zlen_nonneg P3). pose proof (zlen_nonneg P4). pose proof (zlen_nonneg P5).
  assert (HN := zlen_nonneg hd).
  exists s', ops, mj, (hd ++ enc_major (z_host z) mj ++ more), tl.
  split; [reflexivity|]. split; [exact F1|]. split; [split; [exact LB|split; [exists more; reflexivity|]]|].
  { intros p l A B. fold hd in B. rewrite BE, FR in A. rewrite <- (app_nil_r (hd ++ _ ++ more)), <- !app_assoc. 
    eapply phys_at_patch; [rewrite app_nil_r; exact A|exact ML|]. rewrite zlen_app. unfold zlen at 2. lia. }
  split; [|split; [rewrite EM; split; reflexivity|split; [reflexivity|]]].
  - unfold contents_of. constructor; cbn [c_syms c_uels c_texts c_acros c_dstrs]; fold hd.
    1: exists (more ++ tl); rewrite <- !app_assoc; reflexivity.
    all: rewrite <- EC, <- ?EB1, <- ?EB2, <- ?EB3, <- ?EB4, <- ?EB5, <- ?EP1, <- ?EP2, <- ?EP3, <- ?EP4, <- ?EP5.
    all: apply PA; rewrite EM; cbn [mj_symb mj_uel mj_text mj_acro mj_doms]; [|rewrite ?zlen_app; lia].
    all: eapply phys_at_eq; rewrite <- F0, <- !app_assoc; reflexivity.
  - intros LT. unfold tl in LT. rewrite !zlen_app in LT. rewrite !zlen_app in LB. rewrite EM. unfold major_ok, i64_ok. cbn [mj_symb mj_uel mj_text mj_acro mj_nwp mj_doms].
    pose proof (zlen_nonneg tail). rewrite ?zlen_app. repeat split; lia.
Qed.

End Z.
