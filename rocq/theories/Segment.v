(** * Segment: from the calls that wrote a symbol to the records in the file

    A write session split into what comes before a symbol, the calls that write the symbol,
    and what comes after it. *)

From Coq Require Import String.
From Verif Require Import Base Prim Values Records LinkedData StrHash IntMap Strings AStream BufStream State
  FileImage ApiCore ApiFile ApiWrite ApiRead Api FileFacts BlockFacts StreamFacts OpenFacts DicInv WriteInv WriteSteps Journal WriteCalls WriteTrace
  Footprint SessInv FileFlow Sessions Vocab Reopen ReadFacts ReadRecs ReadLoops PropNames PropMeta.
Open Scope Z_scope.
Open Scope list_scope.

Definition while_writing (c : call) : Prop := keeps_writing c = true /\ call_ok c.

(** The write session of [reopened], in three parts: the calls [pre] lead to [sp], the
    calls [seg] with the answers [rseg] to [sq], the calls [post] to [st], which is then
    closed; the file is opened again by [st2]. *)
Definition in_parts (z : zlib) (name prod : str) (compr : Z) (pre : list call) (sp : gst) (seg : list call) (rseg : list resp) (sq : gst)
    (post : list call) (st st2 : gst) : Prop :=
  exists rpre rpost, writes z name prod compr pre rpre sp /\ run z seg sp = Done (rseg, sq) /\ run z post sq = Done (rpost, st) /\
    reopened z name prod compr (pre ++ seg ++ post) (rpre ++ rseg ++ rpost) st st2.

(** After opening, the calls [cs] are made, with the answers [rs]. *)
Definition then_calls (z : zlib) (cs : list call) (rs : list resp) (a b : gst) : Prop :=
  Forall (fun c => session_call c = true /\ call_ok c) cs /\ run z cs a = Done (rs, b).

Section Z.
Context (z : zlib).

Lemma run_split : forall a b st rs st', run z (a ++ b) st = Done (rs, st') ->
  exists ra sm rb, run z a st = Done (ra, sm) /\ run z b sm = Done (rb, st') /\ rs = ra ++ rb.
Proof.
  induction a as [|c a IH]; intros b st rs st' H; cbn [app run] in *; [eauto 6|].
  destruct (exec z c st) as [[r s]|]; [|discriminate]. cbn [obind] in *. destruct (run z (a ++ b) s) as [[rs' s']|] eqn:R; [|discriminate].
  cbn [obind] in H. injection H as <- <-. destruct (IH _ _ _ _ R) as (ra & sm & rb & E1 & E2 & ->). exists (r :: ra), sm, rb.
  rewrite E1. cbn [obind]. auto.
Qed.
Lemma run_length : forall cs st rs st', run z cs st = Done (rs, st') -> length rs = length cs.
Proof.
  induction cs as [|c cs IH]; intros st rs st' H; cbn [run] in H; [injection H as <- <-; reflexivity|].
  destruct (exec z c st) as [[r s]|]; [|discriminate]. cbn [obind] in *. destruct (run z cs s) as [[rs' s']|] eqn:R; [|discriminate].
  injection H as <- <-. cbn. f_equal. eauto.
Qed.
Lemma run_cons : forall c cs st rs st', run z (c :: cs) st = Done (rs, st') ->
  exists r s1 rs', exec z c st = Done (r, s1) /\ run z cs s1 = Done (rs', st') /\ rs = r :: rs'.
Proof.
  intros c cs st rs st' H. cbn [run] in H. destruct (exec z c st) as [[r s]|]; [|discriminate]. cbn [obind] in H.
  destruct (run z cs s) as [[rs' s']|] eqn:R; [|discriminate]. injection H as <- <-. eauto 6.
Qed.

Lemma jrun_app : forall a b ra rb J, length ra = length a -> jrun (a ++ b) (ra ++ rb) J = jrun b rb (jrun a ra J).
Proof. induction a as [|c a IH]; intros b [|r ra] rb J L; try discriminate; [reflexivity|]. cbn [app jrun]. apply IH. cbn in L. lia. Qed.

(** ** What the journal has noted of a finished symbol stays *)

Definition not_writing (J : journal) (n : Z) : Prop :=
  match j_phase J with JRaw m _ _ _ _ _ | JBuf m => m <> n | _ => True end.
Definition noted_at (J : journal) (n : Z) (recs : list srec) : Prop := znth (j_syms J) (n - 1) = Some (Some recs) /\ not_writing J n.

Lemma noted_step : forall c r J n recs, noted_at J n recs -> noted_at (jstep c r J) n recs.
Proof.
  intros c r J n recs [Z N]. pose proof (znth_Some _ _ _ Z) as R. assert (O : zlen (j_syms J) + 1 <> n) by lia.
  assert (A : forall l ph, match ph with JRaw m _ _ _ _ _ | JBuf m => m <> n | _ => True end -> noted_at (mkJ l (j_syms J) ph) n recs) by (intros; split; assumption).
  assert (B : forall l ph, match ph with JRaw m _ _ _ _ _ | JBuf m => m <> n | _ => True end -> noted_at (mkJ l (j_syms J ++ [None]) ph) n recs).
  { intros l ph H. split; [|exact H]. cbn [j_syms]. rewrite znth_app_l by lia. exact Z. }
  assert (C : noted_at J n recs) by (split; assumption). unfold not_writing in N.
  unfold jstep. destruct (j_phase J) as [| |m dim dsize mms rs ok|m|] eqn:P; try exact C; destruct c; unfold j_start, j_raw; rewrite ?P;
    repeat match goal with |- context [if ?b then _ else _] => destruct b end;
    try exact C; try (apply A; first [exact I|exact N|exact O]); try (apply B; first [exact I|exact N|exact O]).
  split; [|exact I]. cbn [j_syms]. rewrite znth_zset_neq by lia. exact Z.
Qed.
Lemma noted_run : forall cs rs J n recs, noted_at J n recs -> noted_at (jrun cs rs J) n recs.
Proof. induction cs as [|c cs IH]; intros [|r rs] J n recs H; cbn [jrun]; try exact H. apply IH, noted_step, H. Qed.

(** ** The file, from any journal *)

(** The records of the symbol [n] of an opened file, in the part of the file before its
    index tables. *)
Definition on_file (st : gst) (n dim typ : Z) (recs : list srec) : Prop :=
  exists base tail nm sy, f_start (g_fil st) = base ++ tail /\ f_nwp (g_fil st) = zlen base /\ f_mip (g_fil st) + 80 <= sy_pos sy /\
    znth (d_names (g_dic st)) (n - 1) = Some (nm, sy) /\ sy_dim sy = Z.to_nat dim /\ sy_type sy = typ /\ block_at z (z_host z) base sy recs.

Lemma complete_on_file : forall F h m d R name rd s ops n nm sy recs, complete z F h m d R ->
  znth (d_names d) (n - 1) = Some (nm, sy) -> znth R (n - 1) = Some (Some recs) ->
  on_file (ws s ops (opened name F (z_host z) h m (contents_of d) rd)) n (Z.of_nat (sy_dim sy)) (sy_type sy) recs.
Proof.
  intros F h m d R name rd s ops n nm sy recs C Z1 Z2. destruct (cp_room _ _ _ _ _ _ C) as (base & tail & FE & MN & _ & B & _).
  destruct (Forall2_znth_l _ _ _ _ _ B Z1) as (o & Z3 & BK). rewrite Z2 in Z3. injection Z3 as <-. cbn [fst snd blk] in BK. destruct BK as (BA & LO & _).
  exists base, tail, nm, (FileFacts.stored sy). split; [exact FE|]. split; [exact MN|]. split; [exact LO|]. rewrite Nat2Z.id.
  split; [|split; [reflexivity|split; [reflexivity|exact BA]]].
  change (d_names (g_dic _)) with (List.map (fun e : str * sym => (fst e, FileFacts.stored (snd e))) (d_names d)).
  rewrite znth_map, Z1. reflexivity.
Qed.

Lemma back_from : forall name prod compr cs rs st st2 J, reopened z name prod compr cs rs st st2 ->
  jinv z (new_head prod compr) [] J st ->
  exists F, reads_file z F (d_names (g_dic st)) (uel_count (g_dic st)) st2 /\
    e_tab (g_env st2) = default_tab /\ e_rtab (g_env st2) = default_tab /\
    forall n nm sy recs, znth (d_names (g_dic st)) (n - 1) = Some (nm, sy) -> znth (j_syms J) (n - 1) = Some (Some recs) ->
      block_at z (z_host z) F sy recs /\ on_file st2 n (Z.of_nat (sy_dim sy)) (sy_type sy) recs.
Proof.
  intros name prod compr cs rs st st2 J (W & M & r & st1 & F & rd & rm & E & DG & CF & SZ & CR & DR & RM & O) JI.
  destruct (writes_jinv _ _ _ _ _ _ _ W) as (_ & NM & NE). unfold between_symbols in M.
  destruct JI as [(t & G & WI & JR)|(_ & D & _)]; [|exfalso; rewrite M in D; unfold data_modes in D; cbn in D; intuition discriminate].
  cbn [exec] in E. destruct (close_init z _ _ _ _ _ _ WI M E) as (F' & m & H1 & _ & _ & _ & _ & H6). rewrite NM in H1.
  rewrite H1, disk_get_put in DG. injection DG as ->. specialize (H6 CF SZ).
  destruct (reopen_ok z _ _ _ _ _ _ _ _ H6 CR NE DR RM) as (s & ops & RO & O'). rewrite O' in O. injection O as <-.
  exists F. split; [eapply reads_reopened; eassumption|]. split; [reflexivity|]. split; [reflexivity|].
  intros n nm sy recs Z1 Z2. destruct (Forall2_znth_l _ _ _ _ _ (jr_syms _ _ _ JR) Z2) as (g & Z3 & [N|N]); [discriminate|subst g].
  destruct (Forall2_znth_l _ _ _ _ _ (cp_blocks _ _ _ _ _ _ H6) Z1) as (o & Z4 & B). rewrite Z3 in Z4. injection Z4 as <-. split; [exact B|].
  eapply complete_on_file; eassumption.
Qed.

Lemma parts_jinv : forall name prod compr pre sp seg rseg sq post st st2, in_parts z name prod compr pre sp seg rseg sq post st st2 ->
  exists rpre J0, writes z name prod compr pre rpre sp /\
    jinv z (new_head prod compr) [] J0 sp /\ Forall while_writing seg /\ Forall while_writing post /\
    during z seg sp sq /\ during z post sq st /\
    (forall J n recs, jinv z (new_head prod compr) [] J sq -> noted_at J n recs ->
     exists J', jinv z (new_head prod compr) [] J' st /\ noted_at J' n recs).
Proof.
  intros name prod compr pre sp seg rseg sq post st st2 (rpre & rpost & W & R1 & R2 & RO). 
  destruct (writes_jinv _ _ _ _ _ _ _ W) as ((J0 & JI) & _). exists rpre, J0. split; [exact W|]. split; [exact JI|].
  destruct RO as (WA & _). destruct (writes_last _ _ _ _ _ _ _ WA) as (sta & FA & _). apply Forall_app in FA. destruct FA as [_ FA]. apply Forall_app in FA. destruct FA as [FA1 FA2].
  split; [exact FA1|]. split; [exact FA2|]. destruct (keeps_all _ FA1) as [A1 A2]. destruct (keeps_all _ FA2) as [B1 B2].
  split; [split; [exact A1|split; [exact A2|eauto]]|]. split; [split; [exact B1|split; [exact B2|eauto]]|].
  intros J n recs JQ N. exists (jrun post rpost J). split; [eapply jinv_run; eassumption|]. apply noted_run. exact N.
Qed.

(** ** Symbols written with raw indices *)

Inductive raw_start : call -> str -> str -> Z -> Z -> Z -> list (Z * Z) -> Prop :=
| RS_plain : forall id text dim typ uinfo, raw_start (gdxDataWriteRawStart id text dim typ uinfo) id text dim typ uinfo (repeat (0, INT_MAX) (Z.to_nat dim))
| RS_bounds : forall id text dim typ uinfo lo hi, raw_start (gdxDataWriteRawStartKeyBounds id text dim typ uinfo lo hi) id text dim typ uinfo
    (combine (firstn (Z.to_nat dim) lo) (firstn (Z.to_nat dim) hi)).

Lemma raw_starting : forall c id text dim typ uinfo mms, raw_start c id text dim typ uinfo mms -> starting c id text dim typ uinfo.
Proof. intros c id text dim typ uinfo mms []; [left; reflexivity|right; left; eauto]. Qed.

(** Calls that neither begin nor end a symbol, nor change the special values. *)
Definition within (c : call) : bool :=
  match c with
  | gdxDataWriteRawStart _ _ _ _ _ | gdxDataWriteRawStartKeyBounds _ _ _ _ _ _ _ | gdxDataWriteMapStart _ _ _ _ _ | gdxDataWriteStrStart _ _ _ _ _
  | gdxDataWriteDone | gdxSetSpecialValues _ | gdxResetSpecialValues => false
  | _ => true
  end.
(** The raw records among the calls that were accepted, that is, answered by 1. *)
Fixpoint accepted_raw (cs : list call) (rs : list resp) : list (list Z * list Z) :=
  match cs, rs with
  | c :: cs', r :: rs' =>
      match c with
      | gdxDataWriteRaw keys vals => if r_code r =? 1 then [(keys, vals)] else []
      | _ => []
      end ++ accepted_raw cs' rs'
  | _, _ => []
  end.

Lemma raw_segment : forall cs rs J n dim dsize mms recs, length rs = length cs -> Forall (fun c => within c = true) cs ->
  j_phase J = JRaw n dim dsize mms recs true -> 1 <= n <= zlen (j_syms J) ->
  Forall (fun kv => inside mms (firstn dim (fst kv)) = true) (accepted_raw cs rs) ->
  let J' := jrun cs rs J in
  j_tab J' = j_tab J /\ 1 <= n <= zlen (j_syms J') /\
  j_phase J' = JRaw n dim dsize mms (recs ++ List.map (fun kv => (firstn dim (fst kv), List.map (classify (j_tab J)) (firstn dsize (snd kv)))) (accepted_raw cs rs)) true.
Proof.
  induction cs as [|c cs IH]; intros [|r rs] J n dim dsize mms recs L B P N I; try discriminate L.
  - cbn. rewrite app_nil_r. auto.
  - cbn [jrun]. inversion B as [|? ? B1 B2]; subst. cbn [accepted_raw] in *. injection L as L. apply Forall_app in I. destruct I as [I1 I2].
    assert (X : exists recs', j_tab (jstep c r J) = j_tab J /\ 1 <= n <= zlen (j_syms (jstep c r J)) /\ j_phase (jstep c r J) = JRaw n dim dsize mms recs' true /\
      recs' = recs ++ List.map (fun kv => (firstn dim (fst kv), List.map (classify (j_tab J)) (firstn dsize (snd kv))))
        match c with gdxDataWriteRaw keys vals => if r_code r =? 1 then [(keys, vals)] else [] | _ => [] end).
    { unfold jstep. rewrite P. destruct c; try discriminate B1; cbn [List.map]; rewrite ?app_nil_r;
        try (exists recs; rewrite ?P; auto; fail).
      - destruct (r_code r =? 1); cbn [List.map fst snd]; [|rewrite app_nil_r; exists recs; rewrite ?P; auto].
        inversion I1 as [|? ? I3 _]; subst. cbn [fst] in I3. rewrite I3. eexists. cbn [j_tab j_syms j_phase andb]. auto.
      - destruct (r_code r =? 1); exists recs; cbn [j_tab j_syms j_phase]; rewrite ?P; auto. split; [reflexivity|]. split; [|auto].
        unfold zlen in *. rewrite app_length. cbn. lia. }
    destruct X as (recs' & T & N' & P' & ->).
    destruct (IH rs (jstep c r J) n dim dsize mms _ L B2 P' N' I2) as (Q1 & Q2 & Q3). rewrite T in Q1, Q3. split; [exact Q1|]. split; [exact Q2|].
    rewrite Q3, <- app_assoc, map_app. reflexivity.
Qed.

Lemma start_idle : forall h base J c id text dim typ uinfo st r st', jinv z h base J st -> starting c id text dim typ uinfo ->
  exec z c st = Done (r, st') -> r_code r = 1 -> j_phase J = JIdle /\ zlen (j_syms J) = sym_count (g_dic st) /\ may_start st id dim typ /\ j_tab J = e_tab (g_env st).
Proof.
  intros h base J c id text dim typ uinfo st r st' JI S E C. destruct (start_effect _ _ _ _ _ _ _ _ _ _ S E) as [(-> & _)|(_ & MS & _)]; [discriminate|].
  assert (M : g_mode st = fw_init) by apply MS.
  destruct JI as [(t & G & [CO PH] & R)|(_ & D & _)]; [|exfalso; rewrite M in D; unfold data_modes in D; cbn in D; intuition discriminate].
  split; [|split; [|split; [exact MS|apply R]]].
  - pose proof (jr_phase _ _ _ R) as Q. unfold phase in PH. destruct (j_phase J) as [| |n d ds mms recs ok|n|]; [reflexivity| | | |].
    + destruct Q as [_ Q]. rewrite M in Q. cbn in Q. intuition discriminate.
    + destruct Q as (Q & _). rewrite Q in PH. destruct PH as [[X _] _]. rewrite M in X. cbn in X. intuition discriminate.
    + destruct Q as (i & Q). rewrite Q in PH. destruct PH as [[X _ _ _ _ _ _] _]. rewrite M in X. cbn in X. intuition discriminate.
    + destruct Q.
  - pose proof (Forall2_length _ _ _ (co_blk _ _ _ _ _ CO)) as L1. pose proof (noted_zlen _ _ (jr_syms _ _ _ R)) as L2. unfold sym_count, zlen in *. lia.
Qed.

(** The symbol, as it is when the file is closed. *)
Lemma started_symbol : forall c id text dim typ uinfo sp r s1 cs st, starting c id text dim typ uinfo -> exec z c sp = Done (r, s1) -> r_code r = 1 ->
  during z cs s1 st ->
  0 <= dim <= 20 /\ 0 <= typ <= dt_equ /\
  exists sy, znth (d_names (g_dic st)) (sym_count (g_dic sp)) = Some (id, sy) /\ sy_dim sy = Z.to_nat dim /\ sy_type sy = typ.
Proof.
  intros c id text dim typ uinfo sp r s1 cs st S E C D.
  destruct (start_effect _ _ _ _ _ _ _ _ _ _ S E) as [(-> & _)|(_ & MS & s & F & DD)]; [discriminate|].
  destruct MS as (_ & _ & _ & _ & B1 & B2). split; [exact B1|]. split; [exact B2|]. destruct F as (F1 & F2 & _).
  assert (X : symbol z s1 (sym_count (g_dic sp) + 1) id dim typ).
  { apply symbol_iff. exists s. rewrite DD. cbn [d_names set_d_names]. replace (sym_count (g_dic sp) + 1 - 1) with (sym_count (g_dic sp)) by lia.
    split; [apply znth_snoc; right; split; reflexivity|]. split; [lia|congruence]. }
  apply (C29_symbols_stay _ _ _ _ _ _ _ _ D) in X. apply symbol_iff in X. destruct X as (sy & X1 & X2 & X3).
  replace (sym_count (g_dic sp) + 1 - 1) with (sym_count (g_dic sp)) in X1 by lia. exists sy. split; [exact X1|]. split; [lia|congruence].
Qed.

Definition raw_recs (tab : list Z) (dim dsize : nat) (l : list (list Z * list Z)) : list srec :=
  List.map (fun kv => (firstn dim (fst kv), List.map (classify tab) (firstn dsize (snd kv)))) l.

Lemma raw_noted : forall prod compr J0 sp c id text dim typ uinfo mms body r rbody rd sq,
  jinv z (new_head prod compr) [] J0 sp -> Forall while_writing (c :: body ++ [gdxDataWriteDone]) ->
  run z (c :: body ++ [gdxDataWriteDone]) sp = Done (r :: rbody ++ [rd], sq) ->
  raw_start c id text dim typ uinfo mms -> r_code r = 1 -> length rbody = length body -> Forall (fun c => within c = true) body -> bounds_okb mms = true ->
  Forall (fun kv => inside mms (firstn (Z.to_nat dim) (fst kv)) = true) (accepted_raw body rbody) ->
  let n := sym_count (g_dic sp) + 1 in
  exists J, jinv z (new_head prod compr) [] J sq /\ noted_at J n (raw_recs (e_tab (g_env sp)) (Z.to_nat dim) (size_of typ) (accepted_raw body rbody)).
Proof.
  intros prod compr J0 sp c id text dim typ uinfo mms body r rbody rd sq JI FS R0 RS C L B BO I n.
  destruct (run_cons _ _ _ _ _ R0) as (r' & s1 & rs' & E1 & R1 & ER). injection ER as <- <-.
  pose proof (start_idle _ _ _ _ _ _ _ _ _ _ _ _ JI (raw_starting _ _ _ _ _ _ _ RS) E1 C) as (PI & CN & MS & TAB).
  inversion FS as [|? ? [K1 K2] FS']; subst.
  pose proof (jinv_step z _ _ _ _ _ _ _ JI K1 K2 E1) as JI1.
  assert (ST : jstep c r J0 = mkJ (j_tab J0) (j_syms J0 ++ [None]) (JRaw n (Z.to_nat dim) (size_of typ) mms [] true)).
  { unfold jstep. rewrite PI. destruct RS; unfold j_start, j_raw; rewrite PI; destruct (Z.eqb_spec (r_code r) 1); try contradiction; rewrite BO, CN; reflexivity. }
  rewrite ST in JI1.
  assert (JQ : jinv z (new_head prod compr) [] (jrun (body ++ [gdxDataWriteDone]) (rbody ++ [rd])
     (mkJ (j_tab J0) (j_syms J0 ++ [None]) (JRaw n (Z.to_nat dim) (size_of typ) mms [] true))) sq) by (eapply jinv_run; [exact JI1|exact FS'|exact R1]).
  rewrite jrun_app in JQ by exact L.
  destruct (raw_segment body rbody (mkJ (j_tab J0) (j_syms J0 ++ [None]) (JRaw n (Z.to_nat dim) (size_of typ) mms [] true)) n _ _ _ _ L B eq_refl) as (T & NN & P).
  { cbn [j_syms]. unfold n. rewrite <- CN. unfold zlen. rewrite app_length. cbn. lia. }
  { exact I. }
  set (J1 := jrun body rbody _) in *. clearbody J1. cbn [j_tab app] in T, P. rewrite TAB in P. fold (raw_recs (e_tab (g_env sp)) (Z.to_nat dim) (size_of typ) (accepted_raw body rbody)) in P.
  cbn [jrun] in JQ. unfold jstep in JQ. rewrite P in JQ. cbv iota in JQ.
  eexists. split; [exact JQ|]. split; [|exact Logic.I]. cbn [j_syms]. apply znth_zset_eq. lia.
Qed.

Lemma raw_parts : forall name prod compr pre sp c id text dim typ uinfo mms body r rbody rd sq post st st2,
  in_parts z name prod compr pre sp (c :: body ++ [gdxDataWriteDone]) (r :: rbody ++ [rd]) sq post st st2 ->
  raw_start c id text dim typ uinfo mms -> r_code r = 1 -> length rbody = length body -> Forall (fun c => within c = true) body -> bounds_okb mms = true ->
  Forall (fun kv => inside mms (firstn (Z.to_nat dim) (fst kv)) = true) (accepted_raw body rbody) ->
  let n := sym_count (g_dic sp) + 1 in
  exists F sy, reads_file z F (d_names (g_dic st)) (uel_count (g_dic st)) st2 /\
    e_tab (g_env st2) = default_tab /\ e_rtab (g_env st2) = default_tab /\
    znth (d_names (g_dic st)) (n - 1) = Some (id, sy) /\ sy_dim sy = Z.to_nat dim /\ sy_type sy = typ /\ 0 <= dim <= 20 /\ 0 <= typ <= dt_equ /\
    block_at z (z_host z) F sy (raw_recs (e_tab (g_env sp)) (Z.to_nat dim) (size_of typ) (accepted_raw body rbody)) /\
    on_file st2 n dim typ (raw_recs (e_tab (g_env sp)) (Z.to_nat dim) (size_of typ) (accepted_raw body rbody)).
Proof.
  intros name prod compr pre sp c id text dim typ uinfo mms body r rbody rd sq post st st2 IP RS C L B BO I n.
  pose proof IP as (rp & rq & _ & R0 & _ & RO).
  destruct (parts_jinv _ _ _ _ _ _ _ _ _ _ _ IP) as (rpre & J0 & W & JI & FS & FP & D1 & D2 & KEEP).
  destruct (raw_noted _ _ _ _ _ _ _ _ _ _ _ _ _ _ _ _ JI FS R0 RS C L B BO I) as (JN & JQ & NA).
  destruct (run_cons _ _ _ _ _ R0) as (r' & s1 & rs' & E1 & R1 & ER). injection ER as <- <-. inversion FS as [|? ? _ FS']; subst.
  destruct (KEEP _ _ _ JQ NA) as (J' & JST & NA' & _).
  destruct (back_from _ _ _ _ _ _ _ _ RO JST) as (F & Q & Q1 & Q2 & BL).
  assert (D3 : during z ((body ++ [gdxDataWriteDone]) ++ post) s1 st).
  { eapply during_trans; [|exact D2]. destruct (keeps_all _ FS') as [A1 A2]. split; [exact A1|]. split; [exact A2|]. eauto. }
  destruct (started_symbol _ _ _ _ _ _ _ _ _ _ _ (raw_starting _ _ _ _ _ _ _ RS) E1 C D3) as (B1 & B2 & sy & S1 & S2 & S3).
  exists F, sy. split; [exact Q|]. split; [exact Q1|]. split; [exact Q2|]. unfold n. replace (sym_count (g_dic sp) + 1 - 1) with (sym_count (g_dic sp)) by lia.
  split; [exact S1|]. split; [exact S2|]. split; [exact S3|]. split; [exact B1|]. split; [exact B2|].
  assert (NN : znth (d_names (g_dic st)) (n - 1) = Some (id, sy)) by (unfold n; replace (sym_count (g_dic sp) + 1 - 1) with (sym_count (g_dic sp)) by lia; exact S1).
  destruct (BL n id sy _ NN NA') as [X1 X2]. assert (DE : Z.of_nat (sy_dim sy) = dim) by (clear - S2 B1; lia). rewrite DE, S3 in X2. split; [exact X1|exact X2].
Qed.
End Z.
