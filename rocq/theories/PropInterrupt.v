(** * PropInterrupt: adding to a file, interrupted

    C63.  The process stops while symbols are added to a file: the file is what it was, or
    it is refused when it is opened.  Proved for files without compression, during the calls
    of the session, and during gdxClose up to its last write if the session stored a symbol;
    refuted for gdxClose of a session that stored none. *)

From Coq Require Import String Permutation Sorted.
From Verif Require Import Base Prim Values Records LinkedData StrHash IntMap Strings AStream BufStream State StateTac
  FileImage ApiCore ApiFile ApiWrite ApiRead Api FileFacts BlockFacts StreamFacts OpenFacts DicInv WriteInv WriteSteps Journal WriteCalls WriteTrace
  FileFlow Footprint SessInv Sessions Vocab Reopen Cases PropMarks PropStruct Crash PropCrash PropChecks PropMerged.
Open Scope Z_scope.
Open Scope list_scope.

(** ** The stream *)

Section A.
Context (z : zlib) (base rest : list Z).

(** The file before; the tables, which begin with the mark "_SYMB_", come behind [base]. *)
Definition before : list Z := base ++ 6 :: 95 :: 83 :: rest.
(** What it begins with when the first symbol has been written over the tables: the data
    of a symbol begins with the mark "_DATA_". *)
Definition over : list Z := base ++ [6; 95; 68].

Lemma over_len : zlen over = zlen base + 3.
Proof. unfold over. rewrite zlen_app. reflexivity. Qed.

(** Nothing was written yet, and the stream is at the end of [base]. *)
Record ready (c : bstream) : Prop := mkReady {
  re_file : b_file c = before;
  re_pend : b_pend c = [];
  re_log : b_log c = [];
  re_comp : b_comp c = false;
  re_at : b_at c = zlen base;
  re_nread : (b_nread c <= length (b_buf c))%nat
}.
(** The first bytes of the first symbol are written, or are waiting. *)
Record held (c : bstream) : Prop := mkHeld {
  he_buf : b_buf c = [];
  he_log : replay before (rev (b_log c)) = b_file c;
  he_seen : forall f, stops before (rev (b_log c)) f -> f = before \/ has over f;
  he_pos : (has over (b_file c) /\ zlen over <= b_phys c) \/
           (b_comp c = false /\ b_phys c = zlen base /\ b_file c = before /\ exists w, b_pend c = 6 :: 95 :: 68 :: w)
}.

Lemma first_write : forall w k, pwrite before (zlen base) (firstn k (6 :: 95 :: 68 :: w)) = before \/ has over (pwrite before (zlen base) (firstn k (6 :: 95 :: 68 :: w))).
Proof.
  intros w [|[|[|k]]].
  - left. reflexivity.
  - left. exact (pwrite_middle base [6] (95 :: 83 :: rest) [6] eq_refl).
  - left. exact (pwrite_middle base [6; 95] (83 :: rest) [6; 95] eq_refl).
  - right. cbn [firstn]. unfold pwrite, before. rewrite <- app_assoc, firstn_zlen_app.
    match goal with |- has over (base ++ (6 :: 95 :: 68 :: ?a) ++ ?b) => exists (a ++ b) end. unfold over. rewrite <- app_assoc. reflexivity.
Qed.

Lemma held_log_write : forall c bs, replay before (rev (b_log c)) = b_file c -> (forall f, stops before (rev (b_log c)) f -> f = before \/ has over f) ->
  (forall k, pwrite (b_file c) (b_phys c) (firstn k bs) = before \/ has over (pwrite (b_file c) (b_phys c) (firstn k bs))) ->
  replay before (rev (b_log (x_write bs c))) = b_file (x_write bs c) /\ forall f, stops before (rev (b_log (x_write bs c))) f -> f = before \/ has over f.
Proof.
  intros c bs L S K. cbn [x_write b_log b_file rev]. split.
  - rewrite replay_app, L. reflexivity.
  - intros f H. apply stops_snoc in H. destruct H as [H|[k ->]]; [apply S; exact H|]. rewrite L. apply K.
Qed.
Lemma held_x_write : forall c bs, held c -> has over (b_file c) -> zlen over <= b_phys c -> held (x_write bs c) /\ has over (b_file (x_write bs c)) /\ zlen over <= b_phys (x_write bs c).
Proof.
  intros c bs [B L S _] H P. destruct (held_log_write c bs L S) as [L' S']; [intros k; right; apply has_pwrite; assumption|].
  assert (H1 : has over (b_file (x_write bs c))) by (apply has_pwrite; assumption).
  assert (P1 : zlen over <= b_phys (x_write bs c)) by (cbn [x_write b_phys]; pose proof (zlen_nonneg bs); lia).
  split; [|auto]. constructor; try assumption. left. auto.
Qed.
Lemma held_clear : forall c, held c -> has over (b_file c) -> zlen over <= b_phys c -> held (b_clear c).
Proof. intros c [B L S _] H P. constructor; try assumption; [reflexivity|]. left. auto. Qed.

Lemma held_flush : forall c, held c -> held (b_flush z c) /\ b_pend (b_flush z c) = [] /\ has over (b_file (b_flush z c)) /\ zlen over <= b_phys (b_flush z c) /\ b_comp (b_flush z c) = b_comp c.
Proof.
  intros c HE. destruct (he_pos _ HE) as [[H P]|(C & P & FE & w & PE)].
  - unfold b_flush. destruct (b_pend c) as [|x pd] eqn:E; [split; [exact HE|]; split; [exact E|]; auto|].
    destruct (b_comp c) eqn:CC; cbn [negb].
    + destruct (_ <? _).
      * match goal with |- context [x_write ?b c] => destruct (held_x_write c b HE H P) as (X1 & X2 & X3) end. split; [apply held_clear; assumption|]. repeat split; assumption.
      * match goal with |- context [x_write ?b c] => destruct (held_x_write c b HE H P) as (X1 & X2 & X3) end.
        match goal with |- context [x_write ?b (x_write ?a c)] => destruct (held_x_write (x_write a c) b X1 X2 X3) as (Y1 & Y2 & Y3) end.
        split; [apply held_clear; assumption|]. repeat split; assumption.
    + destruct (held_x_write c (x :: pd) HE H P) as (X1 & X2 & X3). split; [apply held_clear; assumption|]. repeat split; assumption.
  - destruct HE as [B L S _]. unfold b_flush. rewrite PE, C. cbn [negb].
    destruct (held_log_write c (6 :: 95 :: 68 :: w) L S) as [L' S']; [intros k; rewrite FE, P; apply first_write|].
    assert (HF : has over (b_file (x_write (6 :: 95 :: 68 :: w) c))).
    { cbn [x_write b_file]. rewrite FE, P. unfold pwrite, before. rewrite <- app_assoc, firstn_zlen_app.
      match goal with |- has over (base ++ (6 :: 95 :: 68 :: ?a) ++ ?b) => exists (a ++ b) end. unfold over. rewrite <- app_assoc. reflexivity. }
    assert (PF : zlen over <= b_phys (x_write (6 :: 95 :: 68 :: w) c)).
    { cbn [x_write b_phys]. rewrite P, over_len. unfold zlen. cbn [length]. lia. }
    split; [apply held_clear; try assumption; constructor; try assumption; left; auto|]. repeat split; assumption.
Qed.

Lemma held_append : forall bs c, held c -> held (b_append bs c).
Proof.
  intros bs c [B L S [H|(C & P & F & w & W)]]; constructor; try assumption; [left; assumption|right]. cbn [b_append b_comp b_phys b_file b_pend].
  rewrite W. cbn [app]. eauto 6.
Qed.
Lemma held_write_loop : forall fuel bs c, held c -> held (b_write_loop z fuel bs c).
Proof.
  induction fuel as [|k IH]; intros bs c HE; cbn [b_write_loop]; [exact HE|]. destruct bs as [|b bs]; [exact HE|]. cbv zeta. apply IH.
  pose proof (held_append (firstn (Nat.min (length (b :: bs)) (BUFSZ - length (b_pend c))) (b :: bs)) c HE) as A.
  destruct (BUFSZ <=? _)%nat; [apply held_flush; exact A|exact A].
Qed.
Lemma held_seek : forall p c, held c -> has over (b_file c) -> zlen over <= p -> held (b_seek p c).
Proof.
  intros p c [B L S _] H P. unfold b_seek. rewrite B. change (zlen (@nil Z) =? 0) with true. cbn [negb andb]. constructor; try assumption; [reflexivity|]. left. auto.
Qed.

Lemma held_step : forall o c, held c -> safe_op over o -> held (snd (bstep z o c)).
Proof.
  intros [p| |v|bs|n] c HE O; cbn [bstep safe_op snd] in *; destruct (held_flush c HE) as (SF & PF & HF & LF & CF).
  - unfold b_setpos. destruct (b_pend c) as [|x pd] eqn:E.
    + apply held_seek; try assumption. replace (b_flush z c) with c in HF by (unfold b_flush; rewrite E; reflexivity). exact HF.
    + destruct (_ && _); [exact HE|]. apply held_seek; assumption.
  - unfold b_getpos. destruct (b_pend c); [exact HE|]. cbn [snd]. destruct (b_comp c); [exact SF|exact HE].
  - unfold b_setcomp. cbv zeta. destruct (b_comp c || v) eqn:CV.
    + destruct (Bool.eqb _ v); [exact SF|]. destruct SF as [B L S _]. constructor; try assumption; [reflexivity|]. left. split; assumption.
    + destruct (Bool.eqb_spec (b_comp c) v) as [E|E]; [exact HE|]. exfalso. apply E. destruct (b_comp c), v; try discriminate; reflexivity.
  - unfold b_write. cbv zeta. rewrite (he_buf _ HE). destruct (_ <=? _)%nat; [apply held_append|apply held_write_loop]; exact HE.
  - destruct O.
Qed.

Lemma first_three : forall n (bs t : list Z), (3 <= n)%nat -> (3 <= length bs)%nat -> firstn 3 bs = t -> (3 <= length (firstn n bs))%nat /\ firstn 3 (firstn n bs) = t.
Proof. intros n bs t N L E. split; [rewrite firstn_length; lia|]. rewrite firstn_firstn. replace (Nat.min 3 n) with 3%nat by lia. exact E. Qed.
Lemma held_first_loop : forall fuel bs c, (forall bs', (3 <= length bs')%nat -> firstn 3 bs' = [6; 95; 68] -> held (b_append bs' c)) -> b_pend c = [] ->
  (3 <= length bs)%nat -> firstn 3 bs = [6; 95; 68] -> held (b_write_loop z (S fuel) bs c).
Proof.
  intros fuel bs c K PE LB FB. cbn [b_write_loop]. destruct bs as [|b bs]; [cbn in LB; lia|]. cbv zeta. apply held_write_loop.
  assert (A : held (b_append (firstn (Nat.min (length (b :: bs)) (BUFSZ - length (b_pend c))) (b :: bs)) c)).
  { assert (NB : (3 <= Nat.min (length (b :: bs)) (BUFSZ - length (b_pend c)))%nat) by (rewrite PE; pose proof BUFSZ_val; change (length (@nil Z)) with O; lia).
    destruct (first_three _ (b :: bs) [6; 95; 68] NB LB FB). apply K; assumption. }
  destruct (BUFSZ <=? _)%nat; [apply held_flush; exact A|exact A].
Qed.
(** The first write. *)
Lemma ready_write : forall w c, ready c -> held (snd (bstep z (OWrite (6 :: 95 :: 68 :: w)) c)).
Proof.
  intros w c [RF RP RL RC RA RN]. cbn [bstep snd]. unfold b_write. cbv zeta.
  assert (X : exists c1, (match b_buf c with [] => c | _ :: _ => mkBS (b_file c) (b_phys c - zlen (b_buf c) + Z.of_nat (b_nread c)) [] 0 (b_pend c) (b_comp c) (b_log c) end) = c1 /\
    b_buf c1 = [] /\ b_log c1 = [] /\ b_comp c1 = false /\ b_phys c1 = zlen base /\ b_file c1 = before /\ b_pend c1 = []).
  { eexists. split; [reflexivity|]. unfold b_at in RA. destruct (b_buf c) eqn:B.
    - cbn [length] in RN. assert (b_nread c = O) by lia. rewrite H in RA. change (zlen (@nil Z)) with 0 in RA. repeat split; try assumption. lia.
    - cbn [b_buf b_log b_comp b_phys b_file b_pend]. repeat split; try assumption. }
  destruct X as (c1 & -> & B & L & C & P & F & PE). clear - B L C P F PE.
  assert (K : forall bs, (3 <= length bs)%nat -> firstn 3 bs = [6; 95; 68] -> held (b_append bs c1)).
  { intros bs LB FB. destruct bs as [|x0 [|x1 [|x2 bs]]]; try (cbn in LB; lia). cbn in FB. injection FB as -> -> ->.
    constructor; cbn [b_append b_buf b_log b_file b_comp b_phys b_pend]; [exact B|rewrite L; symmetry; exact F| |].
    - rewrite L. intros f S. inversion S. left. reflexivity.
    - right. rewrite PE. cbn [app]. eauto 6. }
  destruct (_ <=? _)%nat.
  - apply K; [cbn [length]; lia|reflexivity].
  - apply held_first_loop; [exact K|exact PE|cbn [length]; lia|reflexivity].
Qed.

(** Operations that change nothing. *)
Definition quiet_op (o : sop) : Prop := match o with OSetPos p => p = zlen base | OGetPos => True | OSetComp c => c = false | _ => False end.
Lemma ready_step : forall o c, ready c -> quiet_op o -> ready (snd (bstep z o c)).
Proof.
  intros [p| |v|bs|n] c R O; cbn [bstep quiet_op snd] in *; try contradiction.
  - subst p. destruct R as [RF RP RL RC RA RN]. unfold b_setpos. rewrite RP. unfold b_seek. cbv zeta.
    destruct (_ && _)%bool eqn:E; constructor; cbn [b_file b_pend b_log b_comp b_nread b_buf]; try assumption; try reflexivity; try (cbn; lia).
    + unfold b_at. cbn [b_phys b_buf b_nread]. repeat (apply andb_true_iff in E; destruct E as [E ?]). rewrite Z2Nat.id by lia. lia.
    + repeat (apply andb_true_iff in E; destruct E as [E ?]). unfold zlen in *. lia.
    + unfold b_at. cbn [b_phys b_buf b_nread]. change (zlen (@nil Z)) with 0. lia.
  - unfold b_getpos. rewrite (re_pend _ R). exact R.
  - subst v. unfold b_setcomp. rewrite (re_comp _ R). cbn [orb]. rewrite (re_comp _ R). exact R.
Qed.

(** *** Opening the file *)
Definition still (c : bstream) : Prop := b_file c = before /\ b_pend c = [] /\ b_log c = [].
Definition no_write (o : sop) : Prop := match o with OWrite _ => False | _ => True end.
Lemma still_fill : forall c, still c -> still (snd (b_fill z c)).
Proof.
  intros c (F & P & L). unfold b_fill. destruct (negb _); [repeat split; assumption|]. destruct (x_read 3 c) as [h c1] eqn:E. injection E as _ <-.
  destruct h as [|t [|b1 [|b2 [|? ?]]]]; repeat split; assumption.
Qed.
Lemma still_read_loop : forall fuel n c, still c -> still (snd (b_read_loop z fuel n c)).
Proof.
  induction fuel as [|k IH]; intros n c H; cbn [b_read_loop]; [exact H|]. destruct n as [|n]; [exact H|].
  assert (X : still (snd (if (length (b_buf c) <=? b_nread c)%nat then b_fill z c else (true, c)))) by (destruct (_ <=? _)%nat; [apply still_fill; exact H|exact H]).
  destruct (if (length (b_buf c) <=? b_nread c)%nat then b_fill z c else (true, c)) as [ok c1]. cbn [snd] in X. destruct ok; [|exact X]. cbv zeta.
  match goal with |- context [b_read_loop z k ?m ?s] => specialize (IH m s X); destruct (b_read_loop z k m s) end. exact IH.
Qed.
Lemma still_step : forall o c, still c -> no_write o -> still (snd (bstep z o c)).
Proof.
  intros [p| |v|bs|n] c H O; cbn [bstep snd no_write] in *; try contradiction; pose proof H as (F & P & L).
  - unfold b_setpos. rewrite P. unfold b_seek. cbv zeta. destruct (_ && _)%bool; repeat split; assumption.
  - unfold b_getpos. rewrite P. exact H.
  - unfold b_setcomp. cbv zeta. assert (X : (if b_comp c || v then b_flush z c else c) = c) by (unfold b_flush; rewrite P; destruct (_ || _); reflexivity). rewrite X.
    destruct (Bool.eqb _ _); repeat split; assumption.
  - unfold b_read. assert (X : b_flush z c = c) by (unfold b_flush; rewrite P; reflexivity). rewrite X. cbv zeta. destruct (_ <=? _)%nat; [repeat split; assumption|].
    pose proof (still_read_loop n n c H) as Y. destruct (b_read_loop z n n c). exact Y.
Qed.
Lemma still_runs : forall os c, still c -> Forall no_write os -> still (snd (bruns z os c)).
Proof.
  induction os as [|o os IH]; intros c H FO; cbn [bruns]; [exact H|]. pose proof (still_step o c H (Forall_inv FO)) as X. destruct (bstep z o c) as [r c1]. cbn [snd] in X.
  specialize (IH c1 X (Forall_inv_tail FO)). destruct (bruns z os c1). exact IH.
Qed.
(** The stream after the operations [ops], the last one being the first of the list. *)
Definition stream_of (ops : list sop) : bstream := snd (bruns z (rev ops) (b_open before)).
Lemma stream_of_cons : forall o ops, stream_of (o :: ops) = snd (bstep z o (stream_of ops)).
Proof. intros o ops. unfold stream_of. cbn [rev]. rewrite bruns_app. cbn [bruns]. destruct (bstep z o _). reflexivity. Qed.

Lemma opened_ready : forall ops, Forall no_write ops -> ready (stream_of (OSetPos (zlen base) :: OSetComp false :: ops)).
Proof.
  intros ops FO. rewrite !stream_of_cons. assert (S : still (stream_of ops)) by (apply still_runs; [repeat split|apply Forall_rev; exact FO]).
  revert S. generalize (stream_of ops). intros c S. pose proof (still_step (OSetComp false) c S I) as S1.
  assert (C1 : b_comp (snd (bstep z (OSetComp false) c)) = false).
  { cbn [bstep snd]. unfold b_setcomp. cbv zeta. destruct (Bool.eqb _ false) eqn:E; [|reflexivity]. apply Bool.eqb_prop in E. exact E. }
  revert S1 C1. generalize (snd (bstep z (OSetComp false) c)). clear. intros c (F & P & L) C.
  cbn [bstep snd]. unfold b_setpos. rewrite P. unfold b_seek. cbv zeta.
  destruct (_ && _)%bool eqn:E; constructor; cbn [b_file b_pend b_log b_comp b_nread b_buf]; try assumption; try reflexivity; try (cbn; lia).
  + unfold b_at. cbn [b_phys b_buf b_nread]. repeat (apply andb_true_iff in E; destruct E as [E ?]). rewrite Z2Nat.id by lia. lia.
  + repeat (apply andb_true_iff in E; destruct E as [E ?]). unfold zlen in *. lia.
  + unfold b_at. cbn [b_phys b_buf b_nread]. change (zlen (@nil Z)) with 0. lia.
Qed.

(** The index is the last write. *)
Lemma held_index : forall c0 p ix, held c0 -> 0 <= p < zlen over -> ix <> [] -> (length ix <= BUFSZ)%nat ->
  exists ws, rev (b_log (b_flush z (snd (bstep z (OWrite ix) (snd (bstep z (OSetComp false) (snd (bstep z (OSetPos p) c0)))))))) = ws ++ [(p, ix)] /\
    forall f, stops before ws f -> f = before \/ has over f.
Proof.
  intros c0 p ix X P NE LX. cbn [bstep snd]. destruct (held_flush c0 X) as (SF & PF & HF & LF & CF).
  assert (SP : b_setpos z p c0 = b_seek p (b_flush z c0)).
  { unfold b_setpos. destruct (b_pend c0) as [|y pd] eqn:E; [unfold b_flush; rewrite E; reflexivity|]. destruct (b_comp c0) eqn:CC; cbn [negb]; [rewrite Bool.andb_false_r; reflexivity|]. rewrite Bool.andb_true_r.
    destruct (Z.eqb_spec p (b_phys c0 + zlen (y :: pd))) as [Q|Q]; [|reflexivity]. exfalso.
    destruct (he_pos _ X) as [[_ U]|(_ & U & _ & w & W)]; [pose proof (zlen_nonneg (y :: pd)); lia|]. rewrite E in W. rewrite W, over_len, U in *. unfold zlen in *. cbn [length] in *. lia. }
  rewrite SP. clear SP. set (c1 := b_flush z c0) in *. clearbody c1. clear X c0 CF.
  assert (SK : b_seek p c1 = mkBS (b_file c1) p [] 0 [] (b_comp c1) (b_log c1)).
  { unfold b_seek. rewrite (he_buf _ SF), PF. reflexivity. }
  rewrite SK. clear SK.
  assert (SC : b_setcomp z false (mkBS (b_file c1) p [] 0 [] (b_comp c1) (b_log c1)) = mkBS (b_file c1) p [] 0 [] false (b_log c1)).
  { unfold b_setcomp. cbn [b_comp]. destruct (b_comp c1); reflexivity. }
  rewrite SC. clear SC. exists (rev (b_log c1)). split; [|exact (he_seen _ SF)].
  unfold b_write. cbn [b_buf b_pend length]. rewrite Nat.sub_0_r. destruct (Nat.leb_spec (length ix) BUFSZ); [|lia].
  unfold b_append, b_flush. cbn [b_pend app b_comp negb]. destruct ix as [|i ix]; [congruence|]. reflexivity.
Qed.
End A.

(** ** Opening *)

Section B.
Context (z : zlib) (F0 : list Z).
Definition only_reads (st : gst) : Prop := f_start (g_fil st) = F0 /\ Forall no_write (f_ops (g_fil st)).
(** If the file is opened: the last thing done was to switch the compression off. *)
Definition ends (x : outcome (resp * gst)) : Prop :=
  match x with Done (r, s) => r_code r = 1 -> exists s0, only_reads s0 /\ s_setcomp z false s0 = Done s | UB => True end.

Lemma log_reads : forall s o st, only_reads st -> no_write o -> only_reads (s_log s o st).
Proof. intros s o st [A B] N. split; [exact A|]. cbn. constructor; assumption. Qed.
Lemma setcomp_reads : forall c st st', only_reads st -> s_setcomp z c st = Done st' -> only_reads st'.
Proof. intros c st st' Q H. apply s_setcomp_inv in H. destruct H as (s & _ & ->). apply log_reads; [exact Q|exact Logic.I]. Qed.
Lemma setpos_reads : forall p st st', only_reads st -> s_setpos z p st = Done st' -> only_reads st'.
Proof. intros p st st' Q H. apply s_setpos_inv in H. destruct H as (s & _ & _ & ->). apply log_reads; [exact Q|exact Logic.I]. Qed.
Lemma getpos_reads : forall st p st', only_reads st -> s_getpos z st = Done (p, st') -> only_reads st'.
Proof. intros st p st' Q H. apply s_getpos_inv in H. destruct H as (s & s' & _ & _ & ->). apply log_reads; [exact Q|exact Logic.I]. Qed.
Lemma parse_reads : forall {A} (p : parser A) st a st', only_reads st -> s_parse z p st = Done (a, st') -> only_reads st'.
Proof.
  intros A p st a st' Q H. unfold s_parse in H. destruct (f_strm _); [|discriminate]. cbv zeta in H. destruct (as_view _ _); [|discriminate]. destruct (p l) as [[? ?]|]; [|discriminate].
  injection H as _ <-. apply log_reads; [exact Q|exact Logic.I].
Qed.
Lemma error_reads : forall e st, only_reads st -> only_reads (set_error e st).
Proof. intros e st Q. unfold only_reads. rewrite err_fil. exact Q. Qed.

Lemma check_ends : forall b e st k, ends (k st) -> ends (check_or b e st k).
Proof. intros b e st k K. unfold check_or. destruct b; [exact K|]. intros X. discriminate X. Qed.

Ltac reads := match goal with Q : only_reads _ |- only_reads _ => exact Q end.
Ltac stepf := cbv beta iota zeta;
  lazymatch goal with
  | |- ends (check_or ?b _ _ _) => apply check_ends
  | |- ends (file_error _) => let X := fresh in intros X; discriminate X
  | |- ends (@obind gst _ ?x _) => let E := fresh in destruct x eqn:E; [|exact Logic.I]; cbn [obind];
       first [apply setcomp_reads in E|apply setpos_reads in E]; [|reads]
  | |- ends (@obind (_ * gst) _ ?x _) => let E := fresh in destruct x as [[? ?]|] eqn:E; [|exact Logic.I]; cbn [obind];
       first [apply parse_reads in E|apply getpos_reads in E]; [|reads]
  end.

Lemma doms_ends : forall m st k, only_reads st -> (forall s, only_reads s -> ends (k s)) -> ends (open_doms z m st k).
Proof. intros m st k Q K. unfold open_doms. cbv zeta. destruct (_ && _); [|apply K; reads]. repeat stepf. apply K. reads. Qed.
Lemma acros_ends : forall m st k, only_reads st -> (forall s, only_reads s -> ends (k s)) -> ends (open_acros z m st k).
Proof. intros m st k Q K. unfold open_acros. cbv zeta. destruct (7 <=? _); [|apply K; reads]. repeat stepf. apply K. reads. Qed.
Lemma texts_ends : forall m st k, only_reads st -> (forall s, only_reads s -> ends (k s)) -> ends (open_texts z m st k).
Proof.
  intros m st k Q K. unfold open_texts. do 5 stepf. cbv beta iota. match goal with |- ends (obind ?x _) => destruct x as [[tx mt]|]; [|exact Logic.I] end. cbn [obind]. repeat stepf. apply K. reads.
Qed.
Lemma uels_ends : forall m st k, only_reads st -> (forall s, only_reads s -> ends (k s)) -> ends (open_uels z m st k).
Proof. intros m st k Q K. unfold open_uels. repeat stepf. apply K. reads. Qed.
Lemma symbs_ends : forall m st k, only_reads st -> (forall s, only_reads s -> ends (k s)) -> ends (open_symbs z m st k).
Proof. intros m st k Q K. unfold open_symbs. do 5 stepf. cbv beta iota zeta. destruct l; repeat stepf; apply K; reads. Qed.
Lemma header_ends : forall st k, only_reads st -> (forall s, only_reads s -> ends (k s)) -> ends (open_header z st k).
Proof.
  intros st k Q K. unfold open_header. stepf. destruct o as [bo|]; [|let X := fresh in intros X; discriminate X].
  do 6 stepf. cbv beta iota zeta. destruct (_ <=? 5); cbn [obind]; repeat stepf; apply K; reads.
Qed.
Lemma open_read_ends : forall name rm st, disk_get (e_disk (g_env st)) name = Some F0 -> ends (open_read z name rm st).
Proof.
  intros name rm st D. unfold open_read. destruct (negb _); [let X := fresh in intros X; discriminate X|]. cbv zeta.
  destruct name as [|c name]; [let X := fresh in intros X; discriminate X|].
  match goal with |- context [e_disk (g_env ?s)] => change (e_disk (g_env s)) with (e_disk (g_env st)) end. rewrite D.
  apply header_ends; [split; [reflexivity|constructor]|]. intros s1 Q1. stepf. apply symbs_ends; [reads|]. intros s3 Q3. apply uels_ends; [reads|]. intros s4 Q4.
  match goal with |- ends (if _ then open_texts z _ _ ?k else _) => assert (RS : forall s, only_reads s -> ends (k s)) end.
  { intros s5 Q5. apply acros_ends; [reads|]. intros s6 Q6. apply doms_ends; [reads|]. intros s7 Q7. cbv beta iota zeta.
    match goal with |- ends (obind (s_setcomp z false ?s) _) => destruct (s_setcomp z false s) as [s8|] eqn:E; [|exact Logic.I]; exists s end. split; [exact Q7|exact E]. }
  destruct (Z.rem rm 2 =? 0); [apply texts_ends; assumption|apply RS; assumption].
Qed.
End B.

(** *** A file with data in the place of the tables *)

Section N.
Context (z : zlib).

Lemma ptake_cons : forall n a l x v', ptake (S n) (a :: l) = Some (x, v') -> exists t, x = a :: t /\ ptake n l = Some (t, v').
Proof. intros n a l x v' H. cbn [ptake] in H. destruct (ptake n l) as [[t r]|]; [|discriminate]. injection H as <- <-. eauto. Qed.
Lemma over_refused : forall base h m r0 F name mode rd r st', head_ok h -> is_comp h = false -> major_ok m -> base = enc_head (z_host z) h ++ enc_major (z_host z) m ++ r0 -> mj_symb m = zlen base ->
  has (over base) F -> disk_get (e_disk (g_env rd)) name = Some F -> open_read z name mode rd = Done (r, st') -> r_code r <> 1.
Proof.
  intros base h m r0 F name mode rd r st' HO NC (M1 & M2 & M3 & M4 & M5 & M6 & M7) BE MS [b HF] D H. unfold open_read in H. destruct (negb _); [injection H as <- _; discriminate|]. cbv zeta in H.
  destruct name as [|ch name]; [injection H as <- _; discriminate|]. set (nm := ch :: name) in *. clearbody nm.
  match type of H with context [e_disk (g_env ?s)] => change (e_disk (g_env s)) with (e_disk (g_env rd)) in H end. rewrite D in H.
  match type of H with context [open_stream nm F ?s] => assert (WS : open_stream nm F s = ws (as_open F) [] (open_stream nm F s)) by reflexivity; revert WS H; generalize (open_stream nm F s) end.
  intros X WS H. rewrite WS in H. clear WS.
  assert (FE : F = enc_head (z_host z) h ++ enc_major (z_host z) m ++ r0 ++ [6; 95; 68] ++ b) by (rewrite HF; unfold over; rewrite BE, <- !app_assoc; reflexivity).
  unfold enc_major in FE. rewrite <- !app_assoc in FE.
  match type of H with open_header z _ ?k = _ => match type of FE with F = _ ++ _ ++ ?q => destruct (open_header_ok z F (z_host z) h q (as_open F) [] X k HO) as (s1 & o1 & R1 & E1) end end.
  { split; [split; [reflexivity|split; reflexivity]|]. cbn [as_open as_pos]. lia. }
  { exact FE. }
  rewrite E1 in H. clear E1.
  assert (UC : f_uncomp (g_fil (after_header (z_host z) h X)) = false) by exact NC.
  change (f_bo (g_fil (ws s1 o1 (after_header (z_host z) h X)))) with (z_host z) in H. change (f_ver (g_fil (ws s1 o1 (after_header (z_host z) h X)))) with GDX_VERSION in H.
  revert UC H. generalize (after_header (z_host z) h X). clear X. intros X UC H.
  match type of H with context [p_major _ GDX_VERSION ?n] => revert H; generalize n; intros nw H end.
  destruct (parse_rdp z (p_major (z_host z) GDX_VERSION nw) F _ s1 o1 X _ _ R1 (p_major_enc (z_host z) nw m _ M1 M2 M3 M4 M5 M6)) as (s2 & o2 & E2 & R2).
  rewrite E2 in H. cbn [obind] in H. clear E2 R1.
  change (upd_fil (set_f_nwp (mj_nwp m)) (ws s2 o2 X)) with (ws s2 o2 (upd_fil (set_f_nwp (mj_nwp m)) X)) in H.
  unfold open_symbs in H. cbv zeta in H.
  match type of H with context [f_uncomp (g_fil (ws ?s ?o ?Y))] => assert (UY : f_uncomp (g_fil (ws s o Y)) = false) by exact UC; rewrite UY in H; clear UY UC; revert H; generalize Y; clear X; intros X H end.
  destruct R2 as [R2 _]. apply rdv_ok in R2. destruct (s_seek z F false (mj_symb m) s2 o2 X R2) as (st1 & s3 & o3 & E1 & E2 & R3); [rewrite MS; apply zlen_nonneg|].
  rewrite E1 in H. cbn [obind] in H. rewrite E2 in H. cbn [obind] in H. clear E1 E2.
  assert (V : unphys z false (pread F (mj_symb m)) = 6 :: 95 :: 68 :: b) by (unfold unphys, pread; rewrite MS, HF; unfold over; rewrite <- app_assoc; apply skipn_zlen_app).
  rewrite V in R3. clear V.
  assert (PS : exists t v', p_str (6 :: 95 :: 68 :: b) = Some (95 :: 68 :: t, v')).
  { unfold p_str. destruct (ptake (Z.to_nat 6) (95 :: 68 :: b)) as [[x v']|] eqn:E.
    - change (Z.to_nat 6) with (S (S 4)) in E. apply ptake_cons in E. destruct E as (t & -> & E). apply ptake_cons in E. destruct E as (t2 & -> & E). eauto.
    - cbn [app]. eauto. }
  destruct PS as (t & v' & PS). destruct (s_parse_ok z p_str F false _ s3 o3 X _ _ R3 PS) as (s4 & o4 & E4 & _). rewrite E4 in H. cbn [obind] in H.
  unfold check_or at 1 in H. assert (NE : str_eqb (95 :: 68 :: t) MARK_SYMB = false).
  { destruct (str_eqb (95 :: 68 :: t) MARK_SYMB) eqn:Q; [|reflexivity]. apply str_eqb_spec in Q. vm_compute in Q. discriminate Q. }
  rewrite NE in H. unfold file_error in H. injection H as <- _. discriminate.
Qed.

Lemma over_never : forall base h m r0 F, head_ok h -> is_comp h = false -> major_ok m -> base = enc_head (z_host z) h ++ enc_major (z_host z) m ++ r0 -> mj_symb m = zlen base ->
  has (over base) F -> never_opens z F.
Proof.
  intros base h m r0 F HO NC MO BE MS HF name mode rd c r st' D [-> | ->] H; cbn [exec] in H; [eapply over_refused; eassumption|]. unfold open_append in H. obind_inv H. destruct x as [r1 s1].
  pose proof (over_refused _ _ _ _ _ _ _ _ _ _ HO NC MO BE MS HF D E) as NR. destruct (Z.eqb_spec (r_code r1) 1) as [Q|Q]; [contradiction|]. cbn [negb] in H. injection H as <- _. exact NR.
Qed.
End N.

(** ** The calls of a session *)

Section C.
Context (z : zlib).

(** The calls that move or write something. *)
Definition moves (c : call) : bool :=
  match c with
  | gdxDataWriteRawStart _ _ _ _ _ | gdxDataWriteRawStartKeyBounds _ _ _ _ _ _ _ | gdxDataWriteMapStart _ _ _ _ _ | gdxDataWriteStrStart _ _ _ _ _ | gdxDataWriteRaw _ _ | gdxDataWriteDone => true
  | _ => false
  end.

Ltac here := cbn [ok okg]; cbv beta; rewrite ?add_error_fil, ?add_dom_error_fil, ?err_fil, ?enter_fil; rewrite ?add_error_fil, ?add_dom_error_fil, ?err_fil, ?enter_fil; first [assumption|reflexivity].
Ltac split_on b := lazymatch b with context [match ?x with _ => _ end] => split_on x | _ => destruct b eqn:? end.
Ltac go1 :=
  lazymatch goal with
  | |- ok _ UB => exact Logic.I
  | |- okg _ UB => exact Logic.I
  | |- ok _ (Done (_, _)) => here
  | |- okg _ (Done _) => here
  | |- ok _ (obind ?x _) => apply ok_pure; intros ? _
  | |- okg _ (obind ?x _) => apply okg_pure; intros ? _
  | |- ok _ (match ?b with _ => _ end) => split_on b
  | |- okg _ (match ?b with _ => _ end) => split_on b
  end; cbv beta iota zeta.
Ltac go := cbv beta iota zeta; repeat go1.

Lemma call_fil : forall c f st, g_fil st = f -> In (g_mode st) write_modes -> keeps_writing c = true -> moves c = false -> ok (fun s => g_fil s = f) (exec z c st).
Proof.
  intros c f st F M K ND. destruct (looks c) eqn:LK.
  { destruct (exec z c st) as [[r st']|] eqn:E; [|exact Logic.I]. cbn [ok]. rewrite (err_only_fil st st'); [exact F|]. eapply looks_err_only; eassumption. }
  destruct c; try discriminate K; try discriminate LK; try discriminate ND; cbn [exec]; clear K LK ND M.
  - unfold write_map, checked, refuse, fail_with, okay, add_item. cbv zeta. rewrite <- (enter_fil fw_dom_map fw_map_data st) in F. revert F. generalize (enter fw_dom_map fw_map_data st). intros s F. destruct (mode_in _ _); [|go].
    destruct (_ || _); [exact Logic.I|]. destruct (map_keys _ _ _) as [mr mms]. destruct mr; [|go]. cbn [upd_wrk upd g_wrk set_g_wrk w_sort set_w_mms]. destruct (w_sort (g_wrk s)); [|exact Logic.I]. exact F.
  - unfold write_str, checked, refuse, fail_with, okay, add_item. cbv zeta. rewrite <- (enter_fil fw_dom_str fw_str_data st) in F. revert F. generalize (enter fw_dom_str fw_str_data st). intros s F. destruct (mode_in _ _); [|go].
    destruct (_ || _); [exact Logic.I|]. destruct (str_keys _ _ _) as [[b s1]|] eqn:E; [|exact Logic.I]. apply str_keys_fil in E. rewrite <- E in F. cbn [obind]. destruct b; [|exact F]. destruct (w_sort (g_wrk s1)); [|exact Logic.I]. exact F.
  - unfold symbol_set_domain, checked, refuse. destruct (mode_in _ _); [|go]. destruct (w_cur (g_wrk st)) as [|k|]; [exact F| |exact Logic.I]. destruct (get_sym _ _) as [sy|]; [|exact Logic.I]. destruct (_ <? _)%nat; [exact Logic.I|]. cbv zeta.
    match goal with |- ok _ (obind ?x _) => destruct x as [[[b res] s1]|] eqn:E; [|exact Logic.I] end. apply set_domains_fil in E. cbn [obind]. match type of E with _ = g_fil ?s => change (g_fil s) with (g_fil st) in E end. rewrite <- E in F. destruct (negb b); exact F.
  - unfold symbol_set_domain_x, okay, fail_with. go.
  - unfold add_alias, checked, refuse, okay, fail_with. destruct (mode_in _ _); [|go]. cbv zeta. destruct (negb _); [go|].
    match goal with |- ok _ (let '(n, name) := ?X in _) => destruct X as [k nm] end. match goal with |- ok _ (match ?x with _ => _ end) => destruct x as [t|]; [|exact Logic.I] end.
    match goal with |- ok _ (if ?b then _ else _) => destruct b; [go|] end.
    pose proof (good_new_fil nm st) as G. destruct (good_new_symbol nm st) as [b s1]. cbn [snd] in G. rewrite <- G in F. clear G. destruct (negb b); [exact F|]. apply ok_pure. intros tx _. exact F.
  - unfold symbol_add_comment, checked, refuse, okay, fail_with. go.
  - unfold add_set_text. go.
  - unfold set_text_node_nr, okay. go.
  - unfold register_raw_start, checked, refuse, okay. go.
  - unfold register_raw, checked, refuse, okay, fail_with. go.
  - unfold register_str_start, checked, refuse, okay. go.
  - unfold register_str, checked, refuse, okay, fail_with. go.
  - unfold register_map_start, checked, refuse, okay. go.
  - unfold register_map, checked, refuse, okay, fail_with. go.
  - unfold register_done, checked, refuse, okay. go.
  - unfold rename_uel. go.
  - unfold acronym_add. go.
  - unfold acronym_set_info, okay, fail_with. go. all: match goal with X : good_new_symbol ?nm ?s = _ |- _ => pose proof (good_new_fil nm s) as G; rewrite X in G end; cbn [snd] in G; rewrite <- G in F; here.
  - unfold acronym_next_nr. cbv zeta. destruct (0 <=? nv); exact F.
  - unfold set_special, fail_with, okay. go.
  - unfold set_read_special, okay. go.
  - go.
  - go.
  - go.
  - go.
Qed.

(** A start call that goes through: between two symbols; the stream was only told whether
    to compress. *)
Lemma prepare_result : forall name text dim typ uinfo st b s, prepare_symbol_write z name text dim typ uinfo st = Done (b, s) ->
  (b = false /\ g_fil s = g_fil st) \/
  (b = true /\ g_mode st = fw_init /\ exists sm, f_strm (g_fil st) = Some sm /\
    g_fil s = set_f_strm (Some (as_setcomp z (f_compout (g_fil st) && (0 <? dim)) sm)) (set_f_ops (OSetComp (f_compout (g_fil st) && (0 <? dim)) :: f_ops (g_fil st)) (g_fil st))).
Proof.
  intros name text dim typ uinfo st b s H. unfold prepare_symbol_write in H. cbv zeta in H.
  match type of H with (if negb (mode_in (g_mode ?s0) _) then _ else _) = _ => change (g_mode s0) with (g_mode st) in H; destruct (mode_in (g_mode st) [fw_init]) eqn:MI end; cbn [negb] in H.
  2:{ injection H as <- <-. left. rewrite err_fil. auto. }
  assert (MO : g_mode st = fw_init) by (clear - MI; destruct (g_mode st); solve [reflexivity|discriminate MI]).
  match type of H with context [good_new_symbol name ?s0] => pose proof (good_new_fil name s0) as G; change (g_fil s0) with (g_fil st) in G; destruct (good_new_symbol name s0) as [gb s1] end. cbn [snd] in G.
  destruct (negb gb); [injection H as <- <-; left; auto|].
  destruct (negb _); [injection H as <- <-; left; rewrite err_fil; auto|]. destruct (negb _); [injection H as <- <-; left; rewrite err_fil; auto|].
  obind_inv H. injection H as <- <-. apply s_setcomp_inv in E. destruct E as (sm & SM & ->). right. split; [reflexivity|]. split; [exact MO|].
  match type of SM with f_strm (g_fil ?q) = _ => change (g_fil q) with (g_fil s1) in SM end. rewrite G in SM. exists sm. split; [exact SM|].
  match goal with |- g_fil (s_log ?a ?o ?q) = _ => change (g_fil (s_log a o q)) with (set_f_strm (Some a) (set_f_ops (o :: f_ops (g_fil s1)) (g_fil s1))) end. rewrite G. reflexivity.
Qed.

(** Writing records. *)
Section W.
Context (P : fil -> Prop) (PW : forall bs st, P (g_fil st) -> okg (fun s => P (g_fil s)) (s_write bs st)).
Ltac pere := cbn [ok okg]; cbv beta; rewrite ?add_error_fil, ?add_dom_error_fil, ?err_fil; rewrite ?add_error_fil, ?add_dom_error_fil, ?err_fil; match goal with H : P _ |- _ => exact H end.
Lemma do_write_keep : forall k v st, P (g_fil st) -> ok (fun s => P (g_fil s)) (do_write z k v st).
Proof.
  intros k v st F. unfold do_write. cbv zeta. destruct (_ || _); [exact Logic.I|]. destruct (any_violation _ _ _); [pere|]. apply ok_pure. intros r _. destruct r; [pere|pere|].
  apply ok_bindg; [apply PW; exact F|]. intros s1 _ F1. apply ok_pure. intros acs _. apply ok_pure. intros [n s] _.
  destruct (_ || _); [|exact F1]. match goal with |- ok _ (match ?x with _ => _ end) => destruct x; [exact Logic.I|] end.
  match goal with |- ok _ (match ?x with _ => _ end) => destruct x; [|exact F1] end. destruct (Nat.eqb _ _); [|exact F1]. apply ok_pure. intros l' _. exact F1.
Qed.
Lemma write_all_keep : forall rs st, P (g_fil st) -> okg (fun s => P (g_fil s)) (write_all z rs st).
Proof.
  induction rs as [|[k v] rs IH]; intros st F; cbn [write_all]; [exact F|]. apply okg_bind; [apply do_write_keep; exact F|]. intros b s _ F1. cbv beta iota. apply IH. exact F1.
Qed.
End W.

(** No symbol: nothing is written. *)
Lemma do_write_dead : forall k v st b s, w_cur (g_wrk st) = CNull -> do_write z k v st = Done (b, s) -> g_fil s = g_fil st.
Proof.
  intros k v st b s D H. unfold do_write in H. cbv zeta in H. destruct (_ || _); [discriminate|]. destruct (any_violation _ _ _); [injection H as _ <-; rewrite add_dom_error_fil, err_fil; reflexivity|].
  obind_inv H. destruct x; [injection H as _ <-; rewrite add_error_fil, err_fil; reflexivity|injection H as _ <-; rewrite add_error_fil, err_fil; reflexivity|].
  obind_inv H. rename x into s1. apply s_write_inv in E0. destruct E0 as (a & a' & _ & _ & ->). obind_inv H. exfalso. unfold cur_sym in H.
  match type of H with context [w_cur (g_wrk ?q)] => change (w_cur (g_wrk q)) with (w_cur (g_wrk st)) in H end. rewrite D in H. discriminate H.
Qed.

(** *** The two states of an appending session *)
Context (base rest : list Z).
Notation F0 := (before base rest).
Notation strm_of f := (stream_of z base rest (f_ops f)).

Definition untouched (f : fil) : Prop :=
  f_start f = F0 /\ ready base rest (strm_of f) /\ f_compout f = false /\ f_nwp f = zlen base /\
  exists s b, f_strm f = Some s /\ as_comp s = false /\ as_mode s = AIdle b /\ as_pos s = zlen base.
Definition begun_over (f : fil) : Prop := f_start f = F0 /\ held base rest (strm_of f).
(** Bytes wait behind the new mark. *)
Definition far (f : fil) : Prop := exists s pend, f_strm f = Some s /\ as_comp s = false /\ as_mode s = AWr pend /\ zlen (over base) <= as_pos s + zlen pend.

Definition log_op (s : astream) (o : sop) (f : fil) : fil := set_f_strm (Some s) (set_f_ops (o :: f_ops f) f).
Lemma log_op_eq : forall s o st, g_fil (s_log s o st) = log_op s o (g_fil st).
Proof. reflexivity. Qed.
Lemma begun_log : forall s o f, begun_over f -> safe_op (over base) o -> begun_over (log_op s o f).
Proof. intros s o f [A B] O. split; [exact A|]. change (f_ops (log_op s o f)) with (o :: f_ops f). rewrite stream_of_cons. apply held_step; assumption. Qed.

Lemma untouched_setcomp : forall f s, untouched f -> f_strm f = Some s -> untouched (log_op (as_setcomp z false s) (OSetComp false) f).
Proof.
  intros f s (A & B & C & D & s0 & b & S & SC & SM & SP) E. assert (s0 = s) by congruence. subst s0. split; [exact A|]. split; [change (f_ops (log_op (as_setcomp z false s) (OSetComp false) f)) with (OSetComp false :: f_ops f); rewrite stream_of_cons; apply ready_step; [exact B|reflexivity]|].
  split; [exact C|]. split; [exact D|]. exists s, b. split; [|auto]. cbn. unfold as_setcomp. rewrite SC. cbn [orb]. rewrite SC. reflexivity.
Qed.

Lemma over_blockhead : forall bo dim n mms, exists w, enc_blockhead bo dim n mms = 6 :: 95 :: 68 :: w.
Proof. intros. unfold enc_blockhead. change (enc_str MARK_DATA) with [6; 95; 68; 65; 84; 65; 95]. cbn [app]. eauto. Qed.

(** InitDoWrite: the first write of a session. *)
Lemma init_untouched : forall nr st st', untouched (g_fil st) -> init_do_write z nr st = Done st' -> begun_over (g_fil st') /\ far (g_fil st') /\ f_nwp (g_fil st') = zlen base.
Proof.
  intros nr st st' (A & B & C & D & s0 & b & S & SC & SM & SP) H. unfold init_do_write in H. cbv zeta in H. obind_inv H. apply s_setpos_inv in E. destruct E as (s & S1 & P & ->). assert (s0 = s) by congruence. subst s0.
  obind_inv H. match goal with X : (Z * sym)%type |- _ => destruct X end. apply s_write_inv in H. destruct H as (s2 & s3 & S2 & AW & ->). rewrite log_op_eq.
  match type of AW with as_write ?bs _ = _ => destruct (over_blockhead (z_host z) (w_dim (g_wrk (upd_dic (upd_sym z0 (set_sy_pos (f_nwp (g_fil st)))) (s_log (as_setpos z (f_nwp (g_fil st)) s) (OSetPos (f_nwp (g_fil st))) st)))) nr (w_mms (g_wrk (upd_dic (upd_sym z0 (set_sy_pos (f_nwp (g_fil st)))) (s_log (as_setpos z (f_nwp (g_fil st)) s) (OSetPos (f_nwp (g_fil st))) st))))) as [w W]; rewrite W in AW |- * end. clear W.
  match goal with |- context [log_op s3 ?o (g_fil ?q)] => change (g_fil q) with (log_op (as_setpos z (f_nwp (g_fil st)) s) (OSetPos (f_nwp (g_fil st))) (g_fil st)) in * end.
  cbn in S2. injection S2 as <-. rewrite D in *. unfold as_setpos, as_flush, as_write in AW. rewrite SM in AW. cbn in AW. injection AW as <-.
  split; [|split; [|exact D]].
  - split; [exact A|]. cbn [log_op f_ops set_f_strm set_f_ops]. rewrite !stream_of_cons. apply ready_write. apply ready_step; [exact B|reflexivity].
  - exists (mkAS (as_file s) (zlen base) (as_comp s) (AWr (6 :: 95 :: 68 :: w))), (6 :: 95 :: 68 :: w). split; [reflexivity|]. cbn [as_comp as_mode as_pos]. split; [exact SC|]. split; [reflexivity|].
    rewrite over_len. unfold zlen. cbn [length]. lia.
Qed.
Lemma init_begun : forall nr st st', begun_over (g_fil st) -> zlen (over base) <= f_nwp (g_fil st) -> init_do_write z nr st = Done st' -> begun_over (g_fil st') /\ f_nwp (g_fil st') = f_nwp (g_fil st).
Proof.
  intros nr st st' B L H. unfold init_do_write in H. cbv zeta in H. obind_inv H. apply s_setpos_inv in E. destruct E as (s & S1 & P & ->).
  obind_inv H. match goal with X : (Z * sym)%type |- _ => destruct X end. apply s_write_inv in H. destruct H as (s2 & s3 & S2 & AW & ->). rewrite log_op_eq. split; [|reflexivity].
  apply begun_log; [|exact Logic.I]. match goal with |- begun_over (g_fil ?q) => change (g_fil q) with (log_op (as_setpos z (f_nwp (g_fil st)) s) (OSetPos (f_nwp (g_fil st))) (g_fil st)) end. apply begun_log; [exact B|exact L].
Qed.

Lemma begun_write : forall n bs st, begun_over (g_fil st) /\ f_nwp (g_fil st) = n -> okg (fun s => begun_over (g_fil s) /\ f_nwp (g_fil s) = n) (s_write bs st).
Proof.
  intros n bs st [B N]. destruct (s_write bs st) as [s|] eqn:E; [|exact Logic.I]. apply s_write_inv in E. destruct E as (a & a' & _ & _ & ->). cbn [okg]. rewrite log_op_eq. split; [apply begun_log; [exact B|exact Logic.I]|exact N].
Qed.
Lemma far_write : forall n bs st, begun_over (g_fil st) /\ far (g_fil st) /\ f_nwp (g_fil st) = n -> okg (fun s => begun_over (g_fil s) /\ far (g_fil s) /\ f_nwp (g_fil s) = n) (s_write bs st).
Proof.
  intros n bs st (B & (s0 & pend & S & SC & SM & L) & N). destruct (s_write bs st) as [s|] eqn:E; [|exact Logic.I]. apply s_write_inv in E. destruct E as (a & a' & S1 & AW & ->). cbn [okg]. rewrite log_op_eq. assert (a = s0) by congruence. subst a.
  split; [apply begun_log; [exact B|exact Logic.I]|]. split; [|exact N]. unfold as_write in AW. rewrite SM in AW. injection AW as <-. eexists. exists (pend ++ bs). split; [reflexivity|]. cbn [as_comp as_mode as_pos]. split; [exact SC|]. split; [reflexivity|].
  rewrite zlen_app. pose proof (zlen_nonneg bs). lia.
Qed.

(** gdxDataWriteDone, from the mark that ends the records on. *)
Definition done_tail (st : gst) : outcome gst :=
  do st <- s_write (enc_byte 255) st ;;
  do (p, st) <- s_getpos z st ;;
  let st := upd_fil (set_f_nwp p) st in
  do (n, s) <- cur_sym st ;;
  let st := upd_dic (upd_sym n (fun s => set_sy_count (w_cnt (g_wrk st)) (set_sy_errs (r_cnt (g_err st)) s))) st in
  let st := upd_err (set_r_cnt 0) st in
  let st := set_g_mode fw_init st in
  do st <- s_setcomp z false st ;;
  Done (upd_wrk (set_w_cur CNull) st).

Lemma done_begun : forall st st', begun_over (g_fil st) -> done_tail st = Done st' -> begun_over (g_fil st').
Proof.
  intros st st' B H. unfold done_tail in H. obind_inv H. apply s_write_inv in E. destruct E as (a & a' & _ & _ & ->). obind_inv H. match goal with X : (Z * gst)%type |- _ => destruct X end. apply s_getpos_inv in E. destruct E as (a1 & a2 & _ & _ & ->).
  cbv zeta in H. obind_inv H. match goal with X : (Z * sym)%type |- _ => destruct X end. obind_inv H. apply s_setcomp_inv in E0. destruct E0 as (a3 & _ & ->). injection H as <-.
  match goal with |- begun_over (g_fil (upd_wrk _ (s_log ?x ?o ?q))) => change (begun_over (log_op x o (g_fil q))) end. apply begun_log; [|exact Logic.I].
  match goal with |- begun_over (g_fil ?q) => change (begun_over (set_f_nwp z0 (log_op a2 OGetPos (log_op a' (OWrite (enc_byte 255)) (g_fil st))))) end.
  assert (X : begun_over (log_op a2 OGetPos (log_op a' (OWrite (enc_byte 255)) (g_fil st)))) by (apply begun_log; [apply begun_log; [exact B|exact Logic.I]|exact Logic.I]). exact X.
Qed.
Lemma done_far : forall st st', far (g_fil st) -> done_tail st = Done st' -> zlen (over base) <= f_nwp (g_fil st').
Proof.
  intros st st' (s0 & pend & S & SC & SM & L) H. unfold done_tail in H. obind_inv H. apply s_write_inv in E. destruct E as (a & a' & S1 & AW & ->). assert (a = s0) by congruence. subst a. unfold as_write in AW. rewrite SM in AW. injection AW as <-.
  obind_inv H. match goal with X : (Z * gst)%type |- _ => destruct X as [p q] end. apply s_getpos_inv in E. destruct E as (a1 & a2 & S2 & G & ->). cbn in S2. injection S2 as <-. unfold as_getpos in G. cbn in G. rewrite SC in G. injection G as <- <-.
  cbv zeta in H. obind_inv H. match goal with X : (Z * sym)%type |- _ => destruct X end. obind_inv H. apply s_setcomp_inv in E0. destruct E0 as (a3 & _ & ->). injection H as <-. cbn. rewrite zlen_app. pose proof (zlen_nonneg (enc_byte 255)). lia.
Qed.
Lemma done_dead : forall st st', w_cur (g_wrk st) = CNull -> done_tail st = Done st' -> False.
Proof.
  intros st st' D H. unfold done_tail in H. obind_inv H. apply s_write_inv in E. destruct E as (a & a' & _ & _ & ->). obind_inv H. match goal with X : (Z * gst)%type |- _ => destruct X end. apply s_getpos_inv in E. destruct E as (a1 & a2 & _ & _ & ->).
  cbv zeta in H. unfold cur_sym in H. match type of H with context [w_cur (g_wrk ?q)] => change (w_cur (g_wrk q)) with (w_cur (g_wrk st)) in H end. rewrite D in H. discriminate H.
Qed.
End C.

(** *** Each call of the session *)

Section D.
Context (z : zlib) (base rest : list Z).
Notation untouched := (untouched z base rest).
Notation begun_over := (begun_over z base rest).
Notation far := (far base).

Definition moved (f : fil) : Prop := begun_over f /\ zlen (over base) <= f_nwp f.
Definition busy (J : journal) : Prop := in_raw J \/ j_phase J = JLost.
Definition inv (J : journal) (st : gst) : Prop :=
  untouched (g_fil st) \/ moved (g_fil st) \/ (begun_over (g_fil st) /\ far (g_fil st) /\ busy J).

Lemma busy_mode : forall h b J st, jinv z h b J st -> busy J -> In (g_mode st) [fw_dom_raw; fw_raw_data] \/ dead st.
Proof.
  intros h b J st JI [R|L]; [left; eapply in_raw_mode; eassumption|]. destruct JI as [(t & G & _ & JR)|[_ D]]; [exfalso; eapply jr_not_lost; eassumption|right; exact D].
Qed.
Lemma busy_not_init : forall h b J st, jinv z h b J st -> busy J -> g_mode st = fw_init -> False.
Proof.
  intros h b J st JI B M. destruct (busy_mode _ _ _ _ JI B) as [X|[X _]]; rewrite M in X; [cbn in X|unfold data_modes in X; cbn in X]; intuition discriminate.
Qed.
Lemma busy_step : forall c r J, c <> gdxDataWriteDone -> busy J -> busy (jstep c r J).
Proof.
  intros c r J ND [(n & d & ds & mms & recs & ok & P)|P].
  - unfold busy, in_raw, jstep, j_start. rewrite P. destruct c; rewrite ?P; eauto 12; try (right; reflexivity); try (destruct (r_code r =? 1); cbn [j_phase]; rewrite ?P; eauto 12).
    all: try congruence.
  - right. unfold jstep. rewrite P. exact P.
Qed.
(** In the middle of records, bytes are waiting. *)
Lemma raw_waits : forall h b J st, jinv z h b J st -> In (g_mode st) [fw_dom_raw; fw_raw_data] -> dead st \/ exists s pend, f_strm (g_fil st) = Some s /\ as_mode s = AWr pend.
Proof.
  intros h b J st [(t & G & [_ PH] & _)|[_ D]] M; [|left; exact D]. right. unfold WriteInv.phase in PH. destruct (gC G) as [|n o|n items].
  - exfalso. destruct PH as [[Q|[Q _]] _]; [rewrite Q in M|]; cbn in *; intuition congruence.
  - destruct PH as [(_ & sy & recs & WC & _) _]. destruct (wc_out _ _ _ _ _ _ WC) as (nrec & bs & s & S & _ & (tail & _ & _ & _ & W)). destruct W as [W|[W _]]; [eauto|].
    exfalso. destruct (over_blockhead (z_host z) (sy_dim sy) nrec (w_mms (g_wrk st))) as [w X]. rewrite X in W. discriminate W.
  - exfalso. destruct PH as [[X _ _ _ _ _ _] _]. cbn in X, M. intuition congruence.
Qed.
Lemma untouched_not_raw : forall h b J st, jinv z h b J st -> untouched (g_fil st) -> In (g_mode st) [fw_dom_raw; fw_raw_data] -> dead st.
Proof.
  intros h b J st JI (_ & _ & _ & _ & s & bb & S & _ & SM & _) M. destruct (raw_waits _ _ _ _ JI M) as [D|(s1 & pend & S1 & W)]; [exact D|]. exfalso. congruence.
Qed.

Lemma prepare_keep : forall name text dim typ uinfo st b s, prepare_symbol_write z name text dim typ uinfo st = Done (b, s) ->
  (b = false /\ g_fil s = g_fil st) \/ (b = true /\ g_mode st = fw_init /\ (untouched (g_fil st) -> untouched (g_fil s)) /\ (moved (g_fil st) -> moved (g_fil s))).
Proof.
  intros name text dim typ uinfo st b s H. destruct (prepare_result z _ _ _ _ _ _ _ _ H) as [X|(B & M & sm & SM & E)]; [left; exact X|right]. split; [exact B|]. split; [exact M|]. rewrite E.
  change (set_f_strm (Some (as_setcomp z (f_compout (g_fil st) && (0 <? dim)) sm)) (set_f_ops (OSetComp (f_compout (g_fil st) && (0 <? dim)) :: f_ops (g_fil st)) (g_fil st)))
    with (log_op (as_setcomp z (f_compout (g_fil st) && (0 <? dim)) sm) (OSetComp (f_compout (g_fil st) && (0 <? dim))) (g_fil st)).
  split.
  - intros U. pose proof U as (_ & _ & C & _). rewrite C. cbn [andb]. apply untouched_setcomp; assumption.
  - intros [Q N]. split; [apply begun_log; [exact Q|exact Logic.I]|exact N].
Qed.

Definition starts (c : call) : bool :=
  match c with gdxDataWriteRawStart _ _ _ _ _ | gdxDataWriteRawStartKeyBounds _ _ _ _ _ _ _ | gdxDataWriteMapStart _ _ _ _ _ | gdxDataWriteStrStart _ _ _ _ _ => true | _ => false end.

(** A start call: refused, or a buffered symbol, or a symbol whose records are written at once. *)
Lemma start_result : forall c st r st', starts c = true -> exec z c st = Done (r, st') ->
  g_fil st' = g_fil st \/
  (g_mode st = fw_init /\ (untouched (g_fil st) -> untouched (g_fil st')) /\ (moved (g_fil st) -> moved (g_fil st'))) \/
  (g_mode st = fw_init /\ r = ret 1 /\ (forall J, j_phase J = JIdle -> in_raw (jstep c r J)) /\ (untouched (g_fil st) -> begun_over (g_fil st') /\ far (g_fil st')) /\ (moved (g_fil st) -> moved (g_fil st'))).
Proof.
  intros c st r st' S0 H. destruct c; try discriminate S0; cbn [exec] in H.
  1,2: unfold write_raw_start, write_raw_start_bounds, okay in H; obind_inv H; match goal with X : (bool * gst)%type |- _ => destruct X as [b s] end;
    destruct (prepare_keep _ _ _ _ _ _ _ _ E) as [[-> F]|(-> & M & U & V)]; cbn [negb] in H; [injection H as _ <-; left; exact F|]; cbv zeta in H.
  - obind_inv H. injection H as <- <-. right. right. split; [exact M|]. split; [reflexivity|]. split; [intros J P; unfold jstep, j_start; rewrite P; unfold j_raw, in_raw; cbn; eauto 10|]. split.
    + intros Q. match type of E0 with init_do_write _ _ ?q = _ => destruct (init_untouched z base rest _ q _ (U Q) E0) as (A & B & _) end. auto.
    + intros Q. destruct (V Q) as [V1 V2]. match type of E0 with init_do_write _ _ ?q = _ => destruct (init_begun z base rest _ q _ V1 V2 E0) as (A & B) end. split; [exact A|]. match type of B with _ = f_nwp (g_fil ?q) => change (g_fil q) with (g_fil s) in B end. cbn [g_fil set_g_mode]. rewrite B. exact V2.
  - destruct (_ || _); [discriminate H|]. obind_inv H. injection H as <- <-. right. right. split; [exact M|]. split; [reflexivity|]. split; [intros J P; unfold jstep, j_start; rewrite P; unfold j_raw, in_raw; cbn; eauto 10|]. split.
    + intros Q. match type of E0 with init_do_write _ _ ?q = _ => destruct (init_untouched z base rest _ q _ (U Q) E0) as (A & B & _) end. auto.
    + intros Q. destruct (V Q) as [V1 V2]. match type of E0 with init_do_write _ _ ?q = _ => destruct (init_begun z base rest _ q _ V1 V2 E0) as (A & B) end. split; [exact A|]. match type of B with _ = f_nwp (g_fil ?q) => change (g_fil q) with (g_fil s) in B end. cbn [g_fil set_g_mode]. rewrite B. exact V2.
  - unfold write_map_start, okay in H. obind_inv H. destruct x as [b s]. destruct (prepare_keep _ _ _ _ _ _ _ _ E) as [[-> F]|(-> & M & U & V)]; cbn [negb] in H; injection H as _ <-; [left; exact F|right; left; auto].
  - unfold write_str_start, okay in H. obind_inv H. destruct x as [b s]. destruct (prepare_keep _ _ _ _ _ _ _ _ E) as [[-> F]|(-> & M & U & V)]; cbn [negb] in H; [injection H as _ <-; left; exact F|]. right. left. split; [exact M|].
    revert H. intros H. assert (Q : g_fil st' = g_fil s). { revert H. repeat match goal with |- (match ?x with _ => _ end) = _ -> _ => destruct x end; intros H; try discriminate H; injection H as _ <-; reflexivity. } rewrite Q. auto.
Qed.

Lemma raw_result : forall keys vals st r st', exec z (gdxDataWriteRaw keys vals) st = Done (r, st') ->
  g_fil st' = g_fil st \/ (In (g_mode st) [fw_dom_raw; fw_raw_data] /\ (w_cur (g_wrk st) = CNull -> g_fil st' = g_fil st) /\
    (forall P : fil -> Prop, (forall bs s, P (g_fil s) -> okg (fun s => P (g_fil s)) (s_write bs s)) -> P (g_fil st) -> P (g_fil st'))).
Proof.
  intros keys vals st r st' H. cbn [exec] in H. unfold write_raw, checked, refuse in H. destruct (mode_in _ _) eqn:MI; [|injection H as _ <-; left; rewrite ?err_fil, ?enter_fil; reflexivity].
  right. obind_inv H. destruct x as [b s]. injection H as _ <-. split; [|split].
  - clear - MI. unfold enter in MI. cbn. destruct (g_mode st) eqn:M; cbn in MI; rewrite ?M in MI; try discriminate MI; auto.
  - intros D. rewrite <- (enter_fil fw_dom_raw fw_raw_data st). eapply do_write_dead; [|exact E]. unfold enter. destruct (mode_in (g_mode st) _); exact D.
  - intros P PW Q. pose proof (do_write_keep z P PW keys vals (enter fw_dom_raw fw_raw_data st)) as X. rewrite enter_fil, E in X. exact (X Q).
Qed.

Lemma write_done_split : forall st st', write_done z st = Done st' ->
  (In (g_mode st) [fw_dom_raw; fw_raw_data] /\ done_tail z st = Done st') \/
  (mode_in (g_mode st) [fw_raw_data; fw_dom_raw] = false /\ exists items s1 rs s2, w_sort (g_wrk st) = Some items /\ init_do_write z (zlen items) st = Done s1 /\ write_all z rs s1 = Done s2 /\ exists s3, g_fil s3 = g_fil s2 /\ done_tail z s3 = Done st').
Proof.
  intros st st' H. unfold write_done in H. destruct (mode_in (g_mode st) [fw_raw_data; fw_dom_raw]) eqn:MI.
  - left. split; [clear - MI; cbn; destruct (g_mode st); cbn in MI; try discriminate MI; auto|]. exact H.
  - right. split; [reflexivity|]. destruct (w_sort (g_wrk st)) as [items|]; [|discriminate H]. destruct (init_do_write z (zlen items) st) as [s1|] eqn:E1; [|discriminate H]. cbn [obind] in H.
    destruct (sorted_items _ items) as [rs|] eqn:E2; [|discriminate H]. cbn [obind] in H. destruct (write_all z rs s1) as [s2|] eqn:E3; [|discriminate H]. cbn [obind] in H.
    exists items, s1, rs, s2. split; [reflexivity|]. split; [exact E1|]. split; [exact E3|]. eexists. split; [|exact H]. reflexivity.
Qed.
Lemma dead_done : forall st st', dead st -> write_done z st = Done st' -> False.
Proof.
  intros st st' (_ & C & S0) H. destruct (write_done_split _ _ H) as [[_ X]|(_ & items & s1 & rs & s2 & X & _)]; [eapply done_dead; eassumption|congruence].
Qed.

Lemma done_result : forall h b J st st', jinv z h b J st -> jinv z h b (jstep gdxDataWriteDone (ret 1) J) st' -> (forall b', jinv z h b' J st -> jinv z h b' (jstep gdxDataWriteDone (ret 1) J) st') ->
  write_done z st = Done st' -> inv J st -> moved (g_fil st').
Proof.
  intros h b J st st' JI JI' RB H I. destruct JI as [(t & G & WI & JR)|[_ D]]; [|exfalso; eapply dead_done; eassumption].
  assert (JT : jinv z h (b ++ t) J st). { left. exists [], G. rewrite app_nil_r. auto. }
  pose proof (write_done_mode z _ _ H) as MI. destruct I as [U|[[V1 V2]|(V1 & V2 & B)]].
  - destruct (write_done_split _ _ H) as [[M T]|(NM & items & s1 & rs & s2 & _ & E1 & E2 & s3 & E3 & T)].
    + exfalso. eapply dead_done; [eapply untouched_not_raw; eassumption|exact H].
    + destruct (init_untouched z base rest _ _ _ U E1) as (A1 & A2 & A3).
      pose proof (write_all_keep z (fun f => begun_over f /\ far f /\ f_nwp f = zlen base) (far_write z base rest (zlen base)) rs s1 (conj A1 (conj A2 A3))) as K. rewrite E2 in K. cbn [okg] in K. rewrite <- E3 in K. destruct K as (K1 & K2 & _).
      split; [eapply done_begun; eassumption|eapply done_far; eassumption].
  - split.
    + destruct (write_done_split _ _ H) as [[M T]|(NM & items & s1 & rs & s2 & _ & E1 & E2 & s3 & E3 & T)].
      * eapply done_begun; eassumption.
      * destruct (init_begun z base rest _ _ _ V1 V2 E1) as (A1 & A3).
        pose proof (write_all_keep z (fun f => begun_over f /\ f_nwp f = f_nwp (g_fil st)) (begun_write z base rest (f_nwp (g_fil st))) rs s1 (conj A1 A3)) as K. rewrite E2 in K. cbn [okg] in K. rewrite <- E3 in K. destruct K as (K1 & _).
        eapply done_begun; eassumption.
    + pose proof (jinv_room z _ _ _ _ (RB _ JT) MI) as R. destruct WI as [CO _]. rewrite (co_nwp _ _ _ _ _ CO) in V2. lia.
  - destruct (write_done_split _ _ H) as [[M T]|(NM & items & s1 & rs & s2 & S0 & E1 & E2 & s3 & E3 & T)].
    + split; [eapply done_begun; eassumption|eapply done_far; eassumption].
    + exfalso. destruct (busy_mode _ _ _ _ JT B) as [M|D]; [|eapply dead_done; eassumption].
      destruct M as [M|[M|[]]]; rewrite <- M in NM; discriminate NM.
Qed.

Lemma done_cases : forall st r st', exec z gdxDataWriteDone st = Done (r, st') -> (r = ret 1 /\ write_done z st = Done st') \/ (r_code r <> 1 /\ g_fil st' = g_fil st /\ ~ In (g_mode st) [fw_dom_raw; fw_raw_data]).
Proof.
  intros st r st' H. cbn [exec] in H. unfold data_write_done, checked, refuse, okay in H. destruct (mode_in _ _) eqn:MI.
  - obind_inv H. injection H as <- <-. left. auto.
  - injection H as <- <-. right. split; [discriminate|]. rewrite !err_fil. split; [reflexivity|]. intros [M|[M|[]]]; rewrite <- M in MI; discriminate MI.
Qed.

Lemma session_call : forall h b J c st r st', jinv z h b J st -> keeps_writing c = true -> call_ok c -> exec z c st = Done (r, st') -> inv J st ->
  inv (jstep c r J) st' /\ (moved (g_fil st) -> moved (g_fil st')) /\ (c = gdxDataWriteDone -> r_code r = 1 -> moved (g_fil st')).
Proof.
  intros h b J c st r st' JI K O H I0.
  assert (SAME : c <> gdxDataWriteDone -> g_fil st' = g_fil st -> inv (jstep c r J) st' /\ (moved (g_fil st) -> moved (g_fil st')) /\ (c = gdxDataWriteDone -> r_code r = 1 -> moved (g_fil st'))).
  { intros ND E. unfold inv in *. rewrite E. split; [|split; [auto|intros X; contradiction]]. destruct I0 as [U|[V|(V1 & V2 & B)]]; [auto|auto|right; right]. split; [exact V1|]. split; [exact V2|]. apply busy_step; assumption. }
  destruct (moves c) eqn:MV.
  2:{ pose proof (call_fil z c _ st eq_refl (jinv_mode z _ _ _ _ JI) K MV) as X. rewrite H in X. cbn [ok] in X. apply SAME; [intros ->; discriminate MV|exact X]. }
  destruct (starts c) eqn:ST.
  { assert (ND : c <> gdxDataWriteDone) by (intros ->; discriminate ST). destruct (start_result _ _ _ _ ST H) as [E|[(M & U & V)|(M & R & JR & U & V)]]; [apply SAME; assumption| |].
    - split; [|split; [exact V|intros X; contradiction]]. destruct I0 as [Q|[Q|(_ & _ & B)]]; [left; auto|right; left; auto|exfalso; eapply busy_not_init; eassumption].
    - split; [|split; [exact V|intros X; contradiction]]. destruct I0 as [Q|[Q|(_ & _ & B)]]; [|right; left; auto|exfalso; eapply busy_not_init; eassumption].
      right. right. destruct (U Q) as [A B]. split; [exact A|]. split; [exact B|]. left. apply JR. eapply jinv_idle; eassumption. }
  destruct c; try discriminate MV; try discriminate ST; clear MV ST.
  - destruct (raw_result _ _ _ _ _ H) as [E|(M & D & P)]; [apply SAME; [discriminate|exact E]|].
    split; [|split; [|intros X; discriminate X]].
    + destruct I0 as [U|[V|(V1 & V2 & B)]].
      * left. rewrite D; [exact U|]. eapply untouched_not_raw in U; [|eassumption..]. apply U.
      * right. left. destruct V as [V1 V2]. destruct (P (fun f => begun_over f /\ f_nwp f = f_nwp (g_fil st)) (begun_write z base rest _) (conj V1 eq_refl)) as [Q1 Q2]. split; [exact Q1|]. rewrite Q2. exact V2.
      * right. right. destruct (P (fun f => begun_over f /\ far f /\ f_nwp f = f_nwp (g_fil st)) (far_write z base rest _) (conj V1 (conj V2 eq_refl))) as (Q1 & Q2 & _). split; [exact Q1|]. split; [exact Q2|]. apply busy_step; [discriminate|exact B].
    + intros [V1 V2]. destruct (P (fun f => begun_over f /\ f_nwp f = f_nwp (g_fil st)) (begun_write z base rest _) (conj V1 eq_refl)) as [Q1 Q2]. split; [exact Q1|]. rewrite Q2. exact V2.
  - destruct (done_cases _ _ _ H) as [[-> W]|(R & E & NM)].
    + assert (MV : moved (g_fil st')). { eapply (done_result h b J); [exact JI|eapply jinv_step; eassumption| |exact W|exact I0]. intros b' JB. eapply jinv_step; [exact JB|exact K|exact O|exact H]. }
      split; [right; left; exact MV|auto].
    + unfold inv in *. rewrite E. split; [|split; [auto|intros _ X; contradiction]]. destruct I0 as [U|[V|(V1 & V2 & B)]]; [auto|auto|right; right]. split; [exact V1|]. split; [exact V2|].
      destruct B as [B|B]; [exfalso; apply NM; eapply in_raw_mode; eassumption|right; unfold jstep; rewrite B; exact B].
Qed.

(** A symbol was stored: gdxDataWriteDone was answered with success. *)
Definition stored_one (cs : list call) (rs : list resp) : Prop := exists r, In (gdxDataWriteDone, r) (combine cs rs) /\ r_code r = 1.

Lemma session_calls : forall h b cs J st rs st', jinv z h b J st -> Forall (fun c => keeps_writing c = true /\ call_ok c) cs -> run z cs st = Done (rs, st') -> inv J st ->
  exists J', jinv z h b J' st' /\ inv J' st' /\ (moved (g_fil st) -> moved (g_fil st')) /\ (stored_one cs rs -> moved (g_fil st')).
Proof.
  intros h b. induction cs as [|c cs IH]; intros J st rs st' JI FC R I0; cbn [run] in R; [injection R as <- <-; exists J; split; [exact JI|]; split; [exact I0|]; split; [auto|intros (r & [] & _)]|].
  obind_inv R. destruct x as [r s1]. obind_inv R. destruct x as [rs1 s2]. injection R as <- <-. destruct (Forall_inv FC) as [K O].
  destruct (session_call _ _ _ _ _ _ _ JI K O E I0) as (I1 & V1 & D1). destruct (IH _ _ _ _ (jinv_step z _ _ _ _ _ _ _ JI K O E) (Forall_inv_tail FC) E0 I1) as (J' & JI' & I2 & V2 & D2).
  exists J'. split; [exact JI'|]. split; [exact I2|]. split; [auto|]. intros (r1 & [X|X] & RC); [injection X as -> ->; apply V2, D1; auto|]. apply D2. exists r1. auto.
Qed.

(** What the disk can hold when the process stops. *)
Lemma inv_stops : forall J st F, inv J st -> stops (before base rest) (disk_writes z st) F -> F = before base rest \/ has (over base) F.
Proof.
  intros J st F I0 S0. assert (X : untouched (g_fil st) \/ begun_over (g_fil st)) by (destruct I0 as [U|[[V _]|(V & _)]]; auto).
  unfold disk_writes, physical in S0. destruct X as [(FS & R & _)|(FS & Q)]; rewrite FS in S0.
  - left. change (snd (bruns z (rev (f_ops (g_fil st))) (b_open (before base rest)))) with (stream_of z base rest (f_ops (g_fil st))) in S0.
    unfold b_flush in S0. rewrite (re_pend _ _ _ R) in S0. rewrite (re_log _ _ _ R) in S0. inversion S0; reflexivity.
  - change (snd (bruns z (rev (f_ops (g_fil st))) (b_open (before base rest)))) with (stream_of z base rest (f_ops (g_fil st))) in S0.
    destruct (held_flush z base rest _ Q) as (HF & _). eapply he_seen; eassumption.
Qed.
End D.

(** *** Closing *)

Section E.
Context (z : zlib) (base rest : list Z).

Lemma finalize_over : forall st st', moved z base rest (g_fil st) -> 0 <= f_mip (g_fil st) < zlen (over base) -> finalize z st = Done st' ->
  exists ws ix, disk_writes z st' = ws ++ [(f_mip (g_fil st), ix)] /\ length ix = 52%nat /\ forall F, stops (before base rest) ws F -> F = before base rest \/ has (over base) F.
Proof.
  intros st st' [Q L] MP H. unfold finalize in H. cbv zeta in H. destruct (negb _); [discriminate|]. remember (f_mip (g_fil st)) as mip eqn:EM.
  remember (f_nwp (g_fil st)) as nwp eqn:EW. remember (f_compout (g_fil st)) as co eqn:EC. remember (g_dic st) as d eqn:ED. clear EM EW EC ED.
  assert (KW : forall bs s s', begun_over z base rest (g_fil s) -> s_write bs s = Done s' -> begun_over z base rest (g_fil s')).
  { intros bs s s' Q1 E. apply s_write_inv in E. destruct E as (? & ? & _ & _ & ->). rewrite log_op_eq. apply begun_log; [exact Q1|exact Logic.I]. }
  assert (KC : forall c s s', begun_over z base rest (g_fil s) -> s_setcomp z c s = Done s' -> begun_over z base rest (g_fil s')).
  { intros c s s' Q1 E. apply s_setcomp_inv in E. destruct E as (? & _ & ->). rewrite log_op_eq. apply begun_log; [exact Q1|exact Logic.I]. }
  assert (KG : forall s p s', begun_over z base rest (g_fil s) -> s_getpos z s = Done (p, s') -> begun_over z base rest (g_fil s')).
  { intros s p s' Q1 E. apply s_getpos_inv in E. destruct E as (? & ? & _ & _ & ->). rewrite log_op_eq. apply begun_log; [exact Q1|exact Logic.I]. }
  assert (KP : forall s s', begun_over z base rest (g_fil s) -> s_setpos z nwp s = Done s' -> begun_over z base rest (g_fil s')).
  { intros s s' Q1 E. apply s_setpos_inv in E. destruct E as (? & _ & _ & ->). rewrite log_op_eq. apply begun_log; [exact Q1|exact L]. }
  Local Ltac nextop H F0 KW KC KG KP :=
    obind_inv H; try (match type of H with context [let '(_, _) := ?x in _] => destruct x end);
    match goal with E : _ = Done _ |- _ => first [apply (KW _ _ _ F0) in E | apply (KC _ _ _ F0) in E | apply (KG _ _ _ F0) in E | apply (KP _ _ F0) in E]; clear F0; rename E into F0 end.
  do 15 nextop H Q KW KC KG KP.
  clear KW KC KG KP. obind_inv H. apply s_setpos_inv in E. destruct E as (s1 & S1 & P1 & ->). obind_inv H. apply s_setcomp_inv in E. destruct E as (s2 & S2 & ->). apply s_write_inv in H. destruct H as (s3 & s4 & S3 & A & ->).
  destruct Q as [FS Q]. match type of A with as_write ?i _ = _ => set (ix := i) in *; assert (LX : length ix = 52%nat) by apply enc_major_length end.
  destruct (held_index z base rest _ mip ix Q MP) as (ws & W1 & W2); [intros X; rewrite X in LX; discriminate LX|rewrite LX; pose proof BUFSZ_val; lia|].
  exists ws, ix. split; [|split; [exact LX|exact W2]]. unfold disk_writes, physical. rewrite !log_op_eq.
  match goal with |- context [log_op s4 _ (log_op ?a ?b (log_op ?c ?dd ?f))] => change (f_start (log_op s4 (OWrite ix) (log_op a b (log_op c dd f)))) with (f_start f); change (f_ops (log_op s4 (OWrite ix) (log_op a b (log_op c dd f)))) with (OWrite ix :: b :: dd :: f_ops f) end.
  rewrite FS. match goal with |- context [snd (bruns z (rev ?o) (b_open (before base rest)))] => change (snd (bruns z (rev o) (b_open (before base rest)))) with (stream_of z base rest o) end. rewrite !stream_of_cons. exact W1.
Qed.
End E.

(** ** What is known of the file that is appended to *)

Record appendable (z : zlib) (F0 : list Z) (h : fhead) (base rest : list Z) : Prop := mkAble {
  ab_file : F0 = before base rest;
  ab_major : exists m r0, head_ok h /\ major_ok m /\ base = enc_head (z_host z) h ++ enc_major (z_host z) m ++ r0 /\ mj_symb m = zlen base;
  ab_comp : is_comp h = false
}.

Lemma able_over : forall z F0 h base rest F, appendable z F0 h base rest -> has (over base) F -> never_opens z F.
Proof. intros z F0 h base rest F [_ (m & r0 & HO & MO & B & S0) C] H. eapply over_never; eassumption. Qed.

Lemma shorter_prefix : forall e r1 t p : list Z, r1 ++ t = e ++ p -> (length e <= length r1)%nat -> exists r0, r1 = e ++ r0.
Proof.
  induction e as [|x e IH]; intros r1 t p H L; [exists r1; reflexivity|]. destruct r1 as [|y r1]; [cbn in L; lia|]. injection H as -> H. cbn [length] in L. destruct (IH _ _ _ H) as [r0 ->]; [lia|]. exists r0. reflexivity.
Qed.
Lemma append_start : forall z name0 prod compr cs0 rs0 st0 F0 name sta, writes z name0 prod compr cs0 rs0 st0 -> closed_file z st0 name0 F0 -> compr mod 2 = 0 -> appending z F0 name sta ->
  exists base rest J, appendable z F0 (new_head prod compr) base rest /\ jinv z (new_head prod compr) [] J sta /\ g_mode sta = fw_init /\ untouched z base rest (g_fil sta) /\
    0 <= f_mip (g_fil sta) < zlen (over base).
Proof.
  intros z name0 prod compr cs0 rs0 st0 F0 name sta W CF CM AP. assert (W1 : writes z name prod compr [] [] sta) by (eapply writes_added; [exact W|exact CF|exact AP|constructor|reflexivity]).
  destruct (writes_jinv0 _ _ _ _ _ _ _ W1) as ((R0 & JI) & _). cbn [jrun] in JI. destruct (appending_facts _ _ _ _ _ _ _ _ _ _ W CF AP) as (_ & MA & _). destruct CF as (MO & r & st1 & E & DG & CT & SZ).
  destruct (writes_jinv _ _ _ _ _ _ _ W) as ((J0 & JI0) & NM & _).
  destruct (close_writes _ _ _ _ _ _ _ JI0 MO E) as (F' & m & G & H1 & _ & _ & _ & _ & _ & C). rewrite H1, NM, disk_get_put in DG. injection DG as ->. specialize (C CT SZ).
  destruct AP as (ob & CL & NE & DO & EA).
  destruct (reopen_ok z _ _ _ _ _ name 0 ob C CL NE DO eq_refl) as (s & ops & RD & E1).
  assert (IC : is_comp (new_head prod compr) = false) by (unfold is_comp, new_head; cbn [h_compr]; rewrite CM; reflexivity).
  destruct C as [HO MJ WF IM BL DI (base & tail & FE & MN & (r1 & BE & B80) & BK & DB & MS)].
  assert (T : exists rest, tail = 6 :: 95 :: 83 :: rest).
  { destruct (im_symb _ _ _ _ _ _ IM) as (pre & post & X & PL). rewrite IC in X. cbn [phys] in X. unfold enc_symbs in X. change (enc_str MARK_SYMB) with [6; 95; 83; 89; 77; 66; 95] in X. rewrite <- !app_assoc in X. cbn [app] in X.
    rewrite FE in X. apply app_inv_len in X; [|unfold zlen in *; lia]. destruct X as [_ ->]. eauto. }
  destruct T as [rest ->]. assert (FB : F0 = before base rest) by exact FE.
  assert (BM : exists r0, base = enc_head (z_host z) (new_head prod compr) ++ enc_major (z_host z) m ++ r0).
  { destruct (im_head _ _ _ _ _ _ IM) as (post & X). rewrite FE, BE, <- app_assoc in X. apply app_inv_head in X.
    destruct (shorter_prefix _ _ _ _ X) as [r0 Y]; [rewrite enc_major_length; unfold zlen in B80; lia|]. exists r0. rewrite BE, Y. reflexivity. }
  destruct BM as [r0 BM]. exists base, rest, (first_journal R0). split; [|split; [exact JI|split; [exact MA|]]].
  { constructor; [exact FB| |exact IC]. exists m, r0. auto. }
  assert (CO : f_compout (g_fil sta) = false /\ f_mip (g_fil sta) = zlen (enc_head (z_host z) (new_head prod compr))).
  { destruct JI as [(t & G1 & [CO _] & _)|[X _]]; [|discriminate X]. rewrite (co_comp _ _ _ _ _ CO). rewrite (co_mip _ _ _ _ _ CO). auto. }
  destruct CO as [CO CMP]. split.
  2:{ rewrite CMP, over_len, BM, !zlen_app. pose proof (zlen_nonneg (enc_head (z_host z) (new_head prod compr))). pose proof (zlen_nonneg (enc_major (z_host z) m)). pose proof (zlen_nonneg r0). lia. }
  cbn [exec] in E1, EA. pose proof (open_read_ends z F0 name 0 ob DO) as EN. rewrite E1 in EN. destruct (EN eq_refl) as (s0 & [O1 O2] & SC). clear EN.
  unfold open_append in EA. rewrite E1 in EA. cbn [obind] in EA. change (r_code (ret_i 1 [0]) =? 1) with true in EA. cbn [negb] in EA. cbv iota in EA.
  set (X := ws s ops (opened name F0 (z_host z) (new_head prod compr) m (contents_of (g_dic st0)) ob)) in *.
  assert (FN : f_nwp (g_fil X) = zlen base) by (rewrite <- MN; reflexivity).
  assert (FSX : f_strm (g_fil X) = Some s) by reflexivity.
  change (f_ver (g_fil X) <? 7) with false in EA. cbv iota zeta in EA.
  obind_inv EA. rename x into s5. apply (f_equal (fun o : outcome (resp * gst) => match o with Done (_, q) => q | _ => sta end)) in EA. cbn beta iota in EA.
  apply s_setpos_inv in E0. destruct E0 as (sx & SX & _ & E5).
  change (f_strm (g_fil (upd_fil (set_f_stat 2) (set_g_mode fw_init X)))) with (f_strm (g_fil X)) in SX. rewrite FSX in SX. injection SX as <-.
  change (f_nwp (g_fil (upd_fil (set_f_stat 2) (set_g_mode fw_init X)))) with (f_nwp (g_fil X)) in E5. rewrite FN in E5.
  apply s_setcomp_inv in SC. destruct SC as (sy & SY & SXE).
  assert (OX : f_ops (g_fil X) = OSetComp false :: f_ops (g_fil s0)) by (rewrite SXE; reflexivity).
  assert (SS : s = as_setcomp z false sy) by (assert (Y : f_strm (g_fil X) = Some (as_setcomp z false sy)) by (rewrite SXE; reflexivity); congruence).
  assert (ST : f_start (g_fil X) = F0) by (rewrite SXE; exact O1).
  rewrite <- EA, E5 in CO |- *. clear EA E5 SXE. clearbody X.
  split; [|split; [|split; [|split]]].
  - rewrite <- FB. exact ST.
  - match goal with |- ready _ _ (stream_of _ _ _ (f_ops (g_fil ?q))) => change (f_ops (g_fil q)) with (OSetPos (zlen base) :: f_ops (g_fil X)) end. rewrite OX. apply opened_ready. exact O2.
  - exact CO.
  - exact FN.
  - exists (as_setpos z (zlen base) s). assert (MM : exists b, as_mode (as_setpos z (zlen base) s) = AIdle b) by (unfold as_setpos; cbn [as_mode]; eauto). destruct MM as [b MM]. exists b.
    split; [reflexivity|]. split; [|split; [exact MM|reflexivity]].
    assert (SF : as_comp s = false). { rewrite SS. unfold as_setcomp. destruct (Bool.eqb _ false) eqn:EB; [|reflexivity]. apply Bool.eqb_prop in EB. exact EB. }
    unfold as_setpos, as_flush. cbn [as_comp]. destruct (as_mode s); exact SF.
Qed.

(** ** C63: appending that is interrupted *)

(** The process stops at any moment while the calls of an appending session are made: the
    file is as it was, or it is a file that cannot be opened any more.  It is never a file
    that opens and holds something else.  Missing: compressed files. *)
Theorem C63_interrupted_append_partial : forall z name0 prod compr cs0 rs0 st0 F0 name sta cs rs st F, writes z name0 prod compr cs0 rs0 st0 -> closed_file z st0 name0 F0 -> compr mod 2 = 0 ->
  appending z F0 name sta -> Forall (fun c => keeps_writing c = true /\ call_ok c) cs -> run z cs sta = Done (rs, st) -> stops F0 (disk_writes z st) F ->
  F = F0 \/ never_opens z F.
Proof.
  intros z name0 prod compr cs0 rs0 st0 F0 name sta cs rs st F W CF CM AP FC R S0. destruct (append_start _ _ _ _ _ _ _ _ _ _ W CF CM AP) as (base & rest & J & AB & JI & MA & U & _).
  destruct (session_calls z base rest _ _ cs J sta rs st JI FC R (or_introl U)) as (J' & _ & I1 & _). rewrite (ab_file _ _ _ _ _ AB) in *.
  destruct (inv_stops z base rest J' st F I1 S0) as [->|H]; [left; reflexivity|right]. eapply able_over; eassumption.
Qed.

(** If the session has stored a symbol, or is in the middle of one, gdxClose completes the
    file with one last write: the index, 52 bytes behind the header.  The process stops
    before that write.  Missing: compressed files; without a symbol stored the claim is
    false, see [C63_old_or_new_refuted]. *)
Theorem C63_closing_partial : forall z name0 prod compr cs0 rs0 st0 F0 name sta cs rs st r st1, writes z name0 prod compr cs0 rs0 st0 -> closed_file z st0 name0 F0 -> compr mod 2 = 0 ->
  appending z F0 name sta -> Forall (fun c => keeps_writing c = true /\ call_ok c) cs -> run z cs sta = Done (rs, st) ->
  (stored_one cs rs /\ g_mode st = fw_init) \/ In (g_mode st) [fw_raw_data; fw_map_data; fw_str_data] -> exec z gdxClose st = Done (r, st1) ->
  exists ws ix, disk_writes z st1 = ws ++ [(zlen (enc_head (z_host z) (new_head prod compr)), ix)] /\ length ix = 52%nat /\
    forall F, stops F0 ws F -> F = F0 \/ never_opens z F.
Proof.
  intros z name0 prod compr cs0 rs0 st0 F0 name sta cs rs st r st1 W CF CM AP FC R SO H. destruct (append_start _ _ _ _ _ _ _ _ _ _ W CF CM AP) as (base & rest & J & AB & JI & MA & U & MP).
  destruct (session_calls z base rest _ _ cs J sta rs st JI FC R (or_introl U)) as (J' & JI' & I1 & _ & V1).
  assert (Q : exists st2 J2, jinv z (new_head prod compr) [] J2 st2 /\ moved z base rest (g_fil st2) /\ g_mode st2 = fw_init /\ close z st2 = Done (r, st1)).
  { cbn [exec] in H. destruct SO as [[SO M]|M].
    - exists st, J'. auto.
    - assert (MD : mode_in (g_mode st) [fw_raw_data; fw_map_data; fw_str_data] = true) by (destruct M as [M|[M|[M|[]]]]; rewrite <- M; reflexivity).
      destruct (close_data z st MD r st1 H) as (st2 & E & M2 & H2). destruct (session_call z base rest _ _ _ gdxDataWriteDone _ _ _ JI' eq_refl Logic.I E I1) as (_ & _ & V2).
      exists st2, (jstep gdxDataWriteDone (ret 1) J'). split; [exact (jinv_step z _ _ _ gdxDataWriteDone _ _ _ JI' eq_refl Logic.I E)|]. split; [apply V2; reflexivity|]. auto. }
  destruct Q as (st2 & J2 & JI2 & V2 & M2 & H2).
  assert (MIP : f_mip (g_fil st2) = zlen (enc_head (z_host z) (new_head prod compr)) /\ f_mip (g_fil sta) = zlen (enc_head (z_host z) (new_head prod compr))).
  { split; [destruct JI2 as [(t & G & [CO _] & _)|(_ & D & _)]|destruct JI as [(t & G & [CO _] & _)|(_ & D & _)]]; try exact (co_mip _ _ _ _ _ CO); exfalso; [rewrite M2 in D|rewrite MA in D]; unfold data_modes in D; cbn in D; intuition discriminate. }
  destruct MIP as [MIP MIA]. unfold close in H2. rewrite M2 in H2. change (mode_in fw_init [fw_raw_data; fw_map_data; fw_str_data]) with false in H2. cbn [obind] in H2. rewrite M2 in H2. change (mode_in fw_init [fw_init]) with true in H2. cbv iota in H2.
  obind_inv H2. rename x into st3. destruct (finalize_over z base rest st2 st3 V2) as (ws & ix & W1 & W2 & W3); [rewrite MIP, <- MIA; exact MP|exact E|].
  exists ws, ix. rewrite <- MIP. split; [|split; [exact W2|]].
  - rewrite <- W1. rewrite <- (release_log z st3). apply (f_equal (fun o : outcome (resp * gst) => match o with Done (_, s) => s | _ => st1 end)) in H2. cbn in H2. rewrite <- H2. reflexivity.
  - intros F S0. rewrite (ab_file _ _ _ _ _ AB) in *. destruct (W3 F S0) as [->|HH]; [left; reflexivity|right]. eapply able_over; eassumption.
Qed.

From Verif Require Import PropMeta Wrote PropRead PropLabels PropAppend.

(** ** What an interrupted session costs *)

(** The file of PropAppend: a symbol is added to it.  The process stops after the first
    write of gdxClose: what the file held before is gone. *)
Lemma ap_session : Forall (fun c => keeps_writing c = true /\ call_ok c) ap_calls /\ run rle_zlib ap_calls ap_open = Done (ap_rs, ap_st).
Proof. split; [apply calls_okb_ok; vm_compute; reflexivity|vm_compute; reflexivity]. Qed.
Lemma ap_stored : stored_one ap_calls ap_rs /\ g_mode ap_st = fw_init.
Proof. split; [|vm_compute; reflexivity]. exists (ret 1). split; [vm_compute; auto 12|reflexivity]. Qed.
Lemma ap_closing : exec rle_zlib gdxClose ap_st = Done (ret 0, ap_closed).
Proof. vm_compute. reflexivity. Qed.
Definition ap_torn : list Z := match disk_writes rle_zlib ap_closed with (p, bs) :: _ => pwrite rc_file p (firstn 100 bs) | [] => [] end.

(** The session of PropAppend stops in its first write. *)
Example C63_closing_case : exists ws ix, disk_writes rle_zlib ap_closed = ws ++ [(zlen (enc_head native (new_head (s2z "test") 0)), ix)] /\ length ix = 52%nat /\ stops rc_file ws ap_torn /\ ap_torn <> rc_file /\ never_opens rle_zlib ap_torn.
Proof.
  destruct rc_reopened as (rs & W & _). destruct (C63_closing_partial rle_zlib _ _ _ _ _ _ _ _ _ _ _ _ _ _ W rc_closed_file eq_refl ap_appending (proj1 ap_session) (proj2 ap_session) (or_introl ap_stored) ap_closing) as (ws & ix & E & L & H).
  exists ws, ix. split; [exact E|]. split; [exact L|].
  assert (S0 : stops rc_file ws ap_torn). { unfold ap_torn. rewrite E. destruct ws as [|[p bs] ws]; [exfalso; revert E; vm_compute; discriminate|]. cbn [app]. apply stops_torn. }
  assert (N : ap_torn <> rc_file) by (vm_compute; discriminate). split; [exact S0|]. split; [exact N|]. destruct (H _ S0) as [X|X]; [exfalso; exact (N X)|exact X].
Qed.

(** So appending is not all-or-nothing: what a file held can be lost. *)
Theorem C63_nothing_is_lost_refuted : exists z name0 prod cs0 rs0 st0 F0 name sta cs rs st r st1 F, writes z name0 prod 0 cs0 rs0 st0 /\ closed_file z st0 name0 F0 /\ appending z F0 name sta /\
  Forall (fun c => keeps_writing c = true /\ call_ok c) cs /\ run z cs sta = Done (rs, st) /\ exec z gdxClose st = Done (r, st1) /\ stops F0 (disk_writes z st1) F /\ never_opens z F.
Proof.
  destruct rc_reopened as (rs & W & _). destruct C63_closing_case as (ws & ix & E & _ & S0 & _ & N).
  exists rle_zlib, (s2z "v.gdx"), (s2z "test"), (rc_pre ++ rc_seg ++ rc_post), rs, rc_st, rc_file, (s2z "v.gdx"), ap_open, ap_calls, ap_rs, ap_st, (ret 0), ap_closed, ap_torn.
  split; [exact W|]. split; [exact rc_closed_file|]. split; [exact ap_appending|]. split; [exact (proj1 ap_session)|]. split; [exact (proj2 ap_session)|]. split; [exact ap_closing|].
  split; [rewrite E; apply stops_app_l; exact S0|exact N].
Qed.

(** A session that stores no symbol writes the tables over the old ones.  Here it gives two
    labels new names; stopped in the first write, it leaves a file that opens and has one
    of the new names and one of the old. *)
Definition rn_calls : list call := [gdxRenameUEL (s2z "a") (s2z "x"); gdxRenameUEL (s2z "B") (s2z "y")].
Definition rn_rs : list resp := answer_of (run rle_zlib rn_calls ap_open).
Definition rn_st : gst := state_of (run rle_zlib rn_calls ap_open).
Definition rn_closed : gst := state_of (exec rle_zlib gdxClose rn_st).
Definition rn_torn : list Z := match disk_writes rle_zlib rn_closed with (p, bs) :: _ => pwrite rc_file p (firstn 164 bs) | [] => [] end.
Definition rn_read : gst := state_of (exec rle_zlib (gdxOpenReadEx (s2z "v.gdx") 0) (upd_env (set_e_disk [(s2z "v.gdx", rn_torn)]) rc_closed)).
Definition rn_new : gst := state_of (exec rle_zlib (gdxOpenReadEx (s2z "v.gdx") 0) rn_closed).

(** A reader of the file with these contents. *)
Definition reads_file (z : zlib) (F : list Z) (rd : gst) : Prop :=
  exists name ob, closed ob /\ name <> [] /\ disk_get (e_disk (g_env ob)) name = Some F /\ exec z (gdxOpenReadEx name 0) ob = Done (ret_i 1 [0], rd).

Theorem C63_old_or_new_refuted : exists z name0 prod cs0 rs0 st0 F0 name sta cs rs st r st1 F rd0 rd1 rd l1 l2,
  writes z name0 prod 0 cs0 rs0 st0 /\ closed_file z st0 name0 F0 /\ appending z F0 name sta /\
  Forall (fun c => keeps_writing c = true /\ call_ok c) cs /\ run z cs sta = Done (rs, st) /\ exec z gdxClose st = Done (r, st1) /\ stops F0 (disk_writes z st1) F /\
  reads_file z F0 rd0 /\ reads_file z (replay F0 (disk_writes z st1)) rd1 /\ reads_file z F rd /\
  label z rd 1 l1 /\ label z rd 2 l2 /\
  ~ label z rd0 1 l1 /\ ~ label z rd1 2 l2.
Proof.
  destruct rc_reopened as (rs & W & _).
  exists rle_zlib, (s2z "v.gdx"), (s2z "test"), (rc_pre ++ rc_seg ++ rc_post), rs, rc_st, rc_file, (s2z "v.gdx"), ap_open, rn_calls, rn_rs, rn_st, (ret 0), rn_closed, rn_torn.
  exists rc_read, rn_new, rn_read, (s2z "x"), (s2z "B").
  split; [exact W|]. split; [exact rc_closed_file|]. split; [exact ap_appending|]. split; [apply calls_okb_ok; vm_compute; reflexivity|]. split; [vm_compute; reflexivity|]. split; [vm_compute; reflexivity|].
  split. { unfold rn_torn. assert (X : exists p bs ws, disk_writes rle_zlib rn_closed = (p, bs) :: ws) by (vm_compute; eauto). destruct X as (p & bs & ws & X). rewrite X. apply stops_torn. }
  split. { exists (s2z "v.gdx"), rc_closed. split; [split; vm_compute; reflexivity|]. split; [discriminate|]. split; vm_compute; reflexivity. }
  split. { exists (s2z "v.gdx"), rn_closed. split; [split; vm_compute; reflexivity|]. split; [discriminate|]. split; vm_compute; reflexivity. }
  split. { exists (s2z "v.gdx"), (upd_env (set_e_disk [(s2z "v.gdx", rn_torn)]) rc_closed). split; [split; vm_compute; reflexivity|]. split; [discriminate|]. split; vm_compute; reflexivity. }
  split; [exists (-1); ans|]. split; [exists (-1); ans|]. split; intros (u & x & X); vm_compute in X; discriminate X.
Qed.

(** During the calls of the session of PropAppend nothing has reached the disk yet, or the
    file is lost. *)
Example C63_interrupted_case : forall F, stops rc_file (disk_writes rle_zlib ap_st) F -> F = rc_file \/ never_opens rle_zlib F.
Proof.
  intros F S0. destruct rc_reopened as (rs & W & _). exact (C63_interrupted_append_partial rle_zlib _ _ _ _ _ _ _ _ _ _ _ _ _ W rc_closed_file eq_refl ap_appending (proj1 ap_session) (proj2 ap_session) S0).
Qed.
Example C63_interrupted_writes : exists F, stops rc_file (disk_writes rle_zlib ap_st) F /\ F <> rc_file.
Proof. exists (replay rc_file (disk_writes rle_zlib ap_st)). split; [apply stops_all|vm_compute; discriminate]. Qed.

Print Assumptions C63_interrupted_append_partial.
Print Assumptions C63_closing_partial.
Print Assumptions C63_nothing_is_lost_refuted.
Print Assumptions C63_old_or_new_refuted.
