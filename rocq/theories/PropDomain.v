(** * Properties of domains: C32 *)

From Coq Require Import String.
From Verif Require Import Base Prim Values Records LinkedData StrHash IntMap Strings AStream BufStream State
  FileImage ApiCore ApiFile ApiWrite ApiRead Api FileFacts BlockFacts StreamFacts OpenFacts DicInv WriteInv WriteSteps Journal WriteCalls WriteTrace
  Footprint SessInv FileFlow Sessions Vocab Reopen Cases PropNames PropMeta.
Open Scope Z_scope.
Open Scope list_scope.

(** ** The modes in which a domain can be set *)

Definition dom_modes : list gmode := [fw_dom_raw; fw_dom_map; fw_dom_str].

Section Z.
Context (z : zlib).

Lemma mode_step_dom : forall a b, mode_step a b -> In b dom_modes -> b = a.
Proof. intros a b [] I; [reflexivity|cbn in I; intuition discriminate..]. Qed.
Lemma calm_dom : forall a b, calm a b -> In (g_mode b) dom_modes -> g_mode b = g_mode a.
Proof. intros a b (C & _). apply mode_step_dom. exact C. Qed.
Ltac notdom M := match type of M with In ?m _ => exfalso; cbn in M; intuition congruence end.

Lemma write_raw_mode : forall h base G keys vals st r st', winv z h base G st -> write_raw z keys vals st = Done (r, st') -> calm st st' \/ g_mode st' = fw_raw_data.
Proof.
  intros h base G keys vals st r st' W H. unfold write_raw in H. cbv zeta in H.
  pose proof (winv_enter z h base G st _ _ W ms_raw) as W1. pose proof (calm_enter fw_dom_raw fw_raw_data st ms_raw) as CA.
  set (st1 := enter fw_dom_raw fw_raw_data st) in *. clearbody st1.
  unfold checked, refuse in H. destruct (mode_in (g_mode st1) [fw_raw_data]) eqn:M.
  2:{ injection H as <- <-. left. eapply calm_trans; [exact CA|apply calm_set_error]. }
  apply mode_in_true in M. destruct M as [M|[]]. obind_inv H. destruct x as [ok st2]. injection H as <- <-.
  destruct G as [R c]. destruct W1 as [C1 P1]. cbn [gR] in C1. unfold phase in P1. cbn [gR gC] in P1.
  destruct c as [|n o|n items].
  { destruct P1 as [[P1|[P1 _]] _]; rewrite <- M in P1; [discriminate|]. cbn in P1. intuition discriminate. }
  2:{ destruct P1 as [[P1 _ _ _ _ _ _] _]. rewrite <- M in P1. cbn in P1. intuition discriminate. }
  destruct P1 as [(P1 & sy & recs & WC & OK) RN].
  destruct (do_write_full _ _ _ _ _ _ _ _ _ _ _ _ C1 WC RN E) as (_ & sy' & RA & _). right. rewrite (rn_mode _ _ _ _ _ RA). auto.
Qed.

Lemma dom_mode_step : forall h base G c st r st', winv z h base G st -> keeps_writing c = true -> call_ok c -> exec z c st = Done (r, st') ->
  In (g_mode st') dom_modes -> g_mode st' = g_mode st \/ g_mode st = fw_init.
Proof.
  intros h base G c st r st' W K O H I.
  assert (CALM : calm st st' -> g_mode st' = g_mode st \/ g_mode st = fw_init). { intros C. left. apply calm_dom; assumption. }
  assert (SAME : mode_step (g_mode st) (g_mode st') -> g_mode st' = g_mode st \/ g_mode st = fw_init). { intros C. left. apply mode_step_dom; assumption. }
  destruct (looks c) eqn:LK.
  { apply CALM. apply err_only_calm. eapply looks_err_only; [exact LK|eapply winv_write_mode; exact W|exact H]. }
  assert (REG : forall m modes, In m reg_modes -> modes = [fw_init] \/ modes = [fr_init; fw_init] ->
    checked modes st (okay (set_g_mode m (set_g_aft (after_reg st) st))) = Done (r, st') -> g_mode st' = g_mode st \/ g_mode st = fw_init).
  { intros m modes IM MM HH. destruct (register_start_step _ _ _ _ _ _ _ _ _ W IM MM HH) as [(_ & _ & C & _)|(_ & M & _)]; auto. }
  destruct c; try discriminate K; try discriminate LK; cbn [exec] in H; cbn [call_ok] in O;
  try (injection H as <- <-; left; reflexivity).
  - destruct (raw_start_step _ _ _ _ _ _ _ _ _ _ _ _ W O H) as [(_ & _ & _ & M & _)|[(_ & _ & M & _) _]]; auto.
  - destruct O as (O & LO & HI).
    destruct (raw_start_bounds_step _ _ _ _ _ _ _ _ _ _ _ _ _ _ W O H) as [(_ & _ & _ & M & _)|[(_ & _ & M & _) _]]; auto.
  - destruct (write_raw_mode _ _ _ _ _ _ _ _ W H) as [C|M]; [auto|]. exfalso. rewrite M in I. cbn in I. intuition discriminate.
  - destruct (map_start_step _ _ _ _ _ _ _ _ _ _ _ _ W O H) as [(_ & _ & _ & M & _)|(_ & _ & M & _)]; auto.
  - destruct O as [O1 O2]. destruct G as [R0 c0]. destruct c0 as [|n o|n items].
    + destruct (write_map_step _ _ _ _ _ _ _ _ _ W O2 H) as [(_ & _ & B & _)|(_ & n & items & ks & GC & _)]; [|cbn in GC; congruence]. apply SAME, B.
    + apply CALM, err_only_calm. eapply write_map_raw; [eapply raw_mode; [exact W|reflexivity]|exact H].
    + destruct (write_map_step _ _ _ _ _ _ _ _ _ W O2 H) as [(_ & _ & B & _)|(-> & n' & items' & ks & GC & _ & _ & _ & _ & W' & B & _)]; apply SAME, B.
  - destruct (str_start_step _ _ _ _ _ _ _ _ _ _ _ _ W O H) as [(_ & _ & _ & M & _)|[(_ & _ & M & _) _]]; auto.
  - destruct O as [O1 O2]. destruct G as [R0 c0]. destruct c0 as [|n o|n items].
    + destruct (write_str_step _ _ _ _ _ _ _ _ _ W O1 O2 H) as [(_ & _ & B & _)|(_ & n & items & GC & _)]; [|cbn in GC; congruence]. apply SAME, B.
    + apply CALM, err_only_calm. eapply write_str_raw; [eapply raw_mode; [exact W|reflexivity]|exact H].
    + destruct (write_str_step _ _ _ _ _ _ _ _ _ W O1 O2 H) as [(_ & _ & B & _)|(-> & n' & items' & GC & _ & _ & W' & B & _)]; apply SAME, B.
  - assert (X : g_mode st' = fw_init \/ calm st st').
    { destruct G as [R0 c0]. destruct c0 as [|n o|n items].
      - right. destruct W as [_ [[M|[M _]] _]]; unfold data_write_done, checked, refuse in H.
        + replace (mode_in (g_mode st) _) with false in H by (rewrite M; reflexivity). injection H as <- <-. apply calm_set_error.
        + replace (mode_in (g_mode st) _) with false in H by (destruct M as [<-|[<-|[<-|[]]]]; reflexivity). injection H as <- <-. apply calm_set_error.
      - left. destruct (write_done_raw_step _ _ _ _ _ _ _ _ _ W eq_refl H) as [(_ & _ & M & _) _]. exact M.
      - left. destruct (write_done_buf_step _ _ _ _ _ _ _ _ _ W eq_refl H) as (sy & sy' & o & (_ & _ & M & _) & _). exact M. }
    destruct X as [X|X]; [|auto]. exfalso. rewrite X in I. cbn in I. intuition discriminate.
  - apply CALM. eapply set_domain_step; eassumption.
  - apply CALM. eapply set_domain_x_step; eassumption.
  - apply CALM. eapply add_alias_step; eassumption.
  - apply CALM. destruct O. eapply add_comment_step; eassumption.
  - apply CALM. eapply add_set_text_step; eassumption.
  - apply CALM. eapply set_text_node_step; eassumption.
  - apply (REG f_raw_elem [fw_init]); [cbn; auto|auto|]. unfold register_raw_start, checked in H |- *. destruct (mode_in (g_mode st) [fw_init]) eqn:M; [|exact H].
      rewrite <- H. unfold after_reg. apply mode_in_true in M. destruct M as [<-|[]]. reflexivity.
  - apply CALM. eapply register_raw_step; eassumption.
  - apply (REG f_str_elem [fr_init; fw_init]); [cbn; auto|auto|exact H].
  - apply CALM. eapply register_str_step; eassumption.
  - apply (REG f_map_elem [fr_init; fw_init]); [cbn; auto|auto|exact H].
  - apply CALM. destruct O. eapply register_map_step; eassumption.
  - destruct (register_done_step _ _ _ _ _ _ _ W H) as [(-> & W' & C & M)|(-> & M & C & W' & M' & EV)]; [auto|]. exfalso. rewrite M' in I. cbn in I. intuition discriminate.
  - apply CALM. destruct O. eapply rename_step; eassumption.
  - apply CALM. destruct O as (O1 & O2 & O3). eapply (acronym_add_step _ _ _ _ _ _ _ _ _ _ W O1 O2 O3 H).
  - apply CALM. destruct O as (O0 & O1 & O2 & O3). eapply (acronym_set_info_step _ _ _ _ _ _ _ _ _ _ _ W O1 O2 O3 H).
  - unfold acronym_next_nr in H. injection H as <- <-. left. destruct (0 <=? nv); reflexivity.
  - destruct (set_special_step _ _ _ _ _ _ _ _ W H) as [(-> & W' & C)|(-> & W' & T' & M & A & WK)]; auto.
  - unfold set_read_special, okay in H. destruct (_ <? 5)%nat; [discriminate|]. injection H as <- <-. left. reflexivity.
Qed.

(** ** Symbols whose domain is settled *)

(** Symbol [n] is there, and it is not the one whose domain can be set now. *)
Definition settled (n : Z) (st : gst) : Prop := 1 <= n <= sym_count (g_dic st) /\ ~ (In (g_mode st) dom_modes /\ w_cur (g_wrk st) = CSym n).

(** The number of the symbol that is being written, according to the journal. *)
Definition j_number (J : journal) : option Z := match j_phase J with JRaw n _ _ _ _ _ | JBuf n => Some n | _ => None end.

Lemma jinv_number : forall h base J st n, jinv z h base J st -> In (g_mode st) dom_modes -> w_cur (g_wrk st) = CSym n -> j_number J = Some n.
Proof.
  intros h base J st n [(t & G & [CO P] & R)|(_ & D)] I C; [|destruct D as (_ & D & _); congruence].
  unfold j_number. pose proof (jr_phase _ _ _ R) as Q. unfold phase in P. destruct (j_phase J) as [| |m dim dsize mms recs ok|m|].
  - destruct Q as [_ Q]. rewrite Q in I. cbn in I. intuition discriminate.
  - destruct Q as [_ Q]. exfalso. unfold reg_modes in Q. unfold dom_modes in I. cbn in Q, I. intuition congruence.
  - destruct Q as (Q & _). rewrite Q in P. destruct P as [(_ & sy & recs' & WC & _) _]. rewrite (wc_cur _ _ _ _ _ _ WC) in C. congruence.
  - destruct Q as (items & Q). rewrite Q in P. destruct P as [BP _]. rewrite (bp_cur _ _ _ _ _ BP) in C. congruence.
  - destruct Q.
Qed.
Lemma jinv_current : forall h base J st n, jinv z h base J st -> j_number J = Some n ->
  w_cur (g_wrk st) = CSym n /\ In (g_mode st) data_modes /\ 1 <= n <= sym_count (g_dic st).
Proof.
  intros h base J st n [(t & G & [CO P] & R)|(L & D)] E; [|unfold j_number in E; rewrite L in E; discriminate].
  unfold j_number in E. pose proof (jr_phase _ _ _ R) as Q. unfold phase in P.
  assert (RG : forall m o, znth (gR G) (m - 1) = Some o -> 1 <= m <= sym_count (g_dic st)).
  { intros m o Z. apply znth_Some in Z. unfold sym_count. pose proof (Forall2_length _ _ _ (co_blk _ _ _ _ _ CO)) as L. unfold zlen in *. lia. }
  destruct (j_phase J) as [| |m dim dsize mms recs ok|m|]; try discriminate; injection E as ->.
  - destruct Q as (Q & _). rewrite Q in P. destruct P as [(M & sy & recs' & WC & _) RN]. rewrite (wc_cur _ _ _ _ _ _ WC). split; [reflexivity|]. split; [|eapply RG; exact RN].
    unfold data_modes. cbn in M |- *. intuition.
  - destruct Q as (items & Q). rewrite Q in P. destruct P as [BP RN]. split; [|split; [|eapply RG; exact RN]].
    + exact (bp_cur _ _ _ _ _ BP).
    + destruct BP as [X _ _ _ _ _ _]. unfold data_modes. cbn in X |- *. intuition.
Qed.
Lemma jinv_count : forall h base J st, jinv z h base J st -> j_phase J <> JLost -> zlen (j_syms J) = sym_count (g_dic st).
Proof.
  intros h base J st [(t & G & [CO P] & R)|(L & D)] N; [|contradiction].
  pose proof (Forall2_length _ _ _ (co_blk _ _ _ _ _ CO)) as L1. pose proof (noted_zlen _ _ (jr_syms _ _ _ R)) as L2. unfold sym_count, zlen in *. lia.
Qed.

Lemma jstep_number : forall c r J n, j_number (jstep c r J) = Some n -> j_number J = Some n \/ (j_phase J = JIdle /\ n = zlen (j_syms J) + 1).
Proof.
  intros c r J n. unfold jstep, j_number. destruct (j_phase J) as [| |m dim dsize mms recs ok|m|] eqn:P; try discriminate; destruct c; unfold j_start, j_raw; rewrite ?P;
  try (intros H; left; exact H); try discriminate;
  repeat match goal with |- context [if ?b then _ else _] => destruct b end; cbn; rewrite ?P; try discriminate; try (intros H; left; exact H); intros H; injection H as <-; auto.
Qed.

Lemma settled_step : forall h base J c st r st' n, jinv z h base J st -> keeps_writing c = true -> call_ok c -> exec z c st = Done (r, st') ->
  settled n st -> settled n st'.
Proof.
  intros h base J c st r st' n JI K O H [R S]. pose proof (jinv_step _ _ _ _ _ _ _ _ JI K O H) as JI'.
  assert (G : names_grow (g_dic st) (g_dic st')).
  { eapply (call_dic z (fun d => names_grow (g_dic st) d) c r st st'); [apply keeps_session; exact K|exact O|exact H| |apply names_grow_refl].
    intros d d' A X. eapply names_grow_trans; [exact X|]. eapply names_grow_step. exact A. }
  split.
  { destruct (znth (d_names (g_dic st)) (n - 1)) as [e|] eqn:E; [|unfold znth, sym_count, zlen in *; destruct (n - 1 <? 0) eqn:Q in E; [lia|apply nth_error_None in E; lia]].
    destruct (G _ _ E) as (e' & E' & _). apply znth_Some in E'. unfold sym_count. lia. }
  intros [I C]. pose proof (jinv_number _ _ _ _ _ JI' I C) as N'. apply jstep_number in N'. destruct N' as [N'|[P N']].
  - destruct (jinv_current _ _ _ _ _ JI N') as (C0 & M0 & _). destruct JI as [(t & GG & W & _)|(L & _)]; [|unfold j_number in N'; rewrite L in N'; discriminate].
    destruct (dom_mode_step _ _ _ _ _ _ _ W K O H I) as [E|E].
    + apply S. rewrite <- E. auto.
    + rewrite E in M0. unfold data_modes in M0. cbn in M0. intuition discriminate.
  - rewrite (jinv_count _ _ _ _ JI) in N' by congruence. lia.
Qed.

(** A settled symbol keeps its domain. *)
Definition doms_of (d : dic) (n : Z) : option (option (list Z) * nat) := option_map (fun s => (sy_doms s, sy_dim s)) (get_sym d n).
Lemma doms_of_upd : forall n m f d, n <> m -> doms_of (upd_sym m f d) n = doms_of d n.
Proof.
  intros n m f d N. unfold doms_of, get_sym, upd_sym. destruct (znth (d_names d) (m - 1)) as [e|]; [|reflexivity]. cbn [d_names set_d_names].
  rewrite znth_zset_neq by lia. reflexivity.
Qed.
Lemma doms_of_step : forall c d d' n, (forall ids, c <> gdxSymbolSetDomain ids) -> datom c d d' -> 1 <= n <= sym_count d -> doms_of d' n = doms_of d n.
Proof.
  intros c d d' n N A R. unfold doms_of, get_sym. destruct (names_cases _ _ _ A) as [->|[(name & s & _ & _ & _ & _ & ->)|(k & e & s & E & K & ->)]]; [reflexivity| |].
  - unfold sym_count in R. rewrite znth_app_l by lia. reflexivity.
  - destruct (Z.eq_dec (n - 1) (k - 1)) as [->|NE].
    + rewrite znth_zset_eq by (eapply znth_Some; exact E). rewrite E. cbn [option_map snd]. f_equal.
      destruct K as [(K1 & _ & _ & _ & _ & _ & K2 & _)|[(ids & v & C & ->)|[(ids & ns & _ & ->)|(j & t & _ & _ & ->)]]].
      * rewrite K1, K2. reflexivity.
      * exfalso. exact (N _ C).
      * reflexivity.
      * reflexivity.
    + rewrite znth_zset_neq by congruence. reflexivity.
Qed.
Lemma settled_doms : forall h base J c st r st' n, jinv z h base J st -> keeps_writing c = true -> call_ok c -> exec z c st = Done (r, st') ->
  settled n st -> doms_of (g_dic st') n = doms_of (g_dic st) n.
Proof.
  intros h base J c st r st' n JI K O H S.
  assert (D : (exists ids, c = gdxSymbolSetDomain ids) \/ forall ids, c <> gdxSymbolSetDomain ids).
  { destruct c; try (right; intros; discriminate). left. eauto. }
  destruct D as [(ids & ->)|D].
  - destruct S as [R S]. cbn [exec] in H. unfold symbol_set_domain, checked, refuse in H.
    destruct (mode_in (g_mode st) [fw_dom_raw; fw_dom_map; fw_dom_str]) eqn:M.
    2:{ injection H as <- <-. reflexivity. }
    apply mode_in_true in M. destruct (w_cur (g_wrk st)) as [|m|] eqn:C; [injection H as <- <-; reflexivity| |discriminate].
    assert (NM : n <> m) by (intros ->; apply S; auto). destruct (get_sym (g_dic st) m) as [s|] eqn:GS; [|discriminate].
    destruct (length ids <? sy_dim s)%nat; [discriminate|]. cbv zeta in H. obind_inv H. destruct x as [[go res] st2].
    destruct JI as [(t & G & W & _)|(_ & Q)]; [|destruct Q as (_ & Q & _); congruence].
    assert (W1 : winv z h (base ++ t) G (upd_dic (upd_sym m (set_sy_doms (Some (repeat 0 (sy_dim s))))) st)).
    { apply winv_upd_sym; [exact W|intros; repeat split|]. intros s0 nn nd np E1 -> -> []. rewrite GS in E1. injection E1 as <-.
      constructor; auto. cbn. split; [apply repeat_length|]. apply Forall_forall. intros x I. apply repeat_spec in I. subst x. left. unfold int_ok, INT_MIN, INT_MAX. lia. }
    destruct (set_domains_step _ _ _ _ _ _ _ _ _ _ _ _ W1 E) as (_ & _ & _ & _ & _ & _ & f & D2 & _).
    assert (X : doms_of (g_dic st2) n = doms_of (g_dic st) n).
    { rewrite D2, doms_of_upd by assumption. cbn [upd_dic upd g_dic set_g_dic]. apply doms_of_upd. assumption. }
    destruct go; cbn [negb] in H; injection H as <- <-; exact X.
  - eapply (call_dic z (fun d => 1 <= n <= sym_count d /\ doms_of d n = doms_of (g_dic st) n) c r st st'); [apply keeps_session; exact K|exact O|exact H| |].
    + intros d d' A [R E]. split; [|rewrite <- E; eapply doms_of_step; eassumption].
      assert (X : zlen (d_names d) <= zlen (d_names d')).
      { destruct (names_cases _ _ _ A) as [->|[(name & s & _ & _ & _ & _ & ->)|(k & e & s & _ & _ & ->)]]; [lia|rewrite zlen_app; change (zlen [(name, s)]) with 1; lia|rewrite zset_length; lia]. }
      unfold sym_count in *. lia.
    + split; [apply S|reflexivity].
Qed.
Lemma settled_run : forall h base cs J st rs st' n, jinv z h base J st -> Forall (fun c => keeps_writing c = true /\ call_ok c) cs -> run z cs st = Done (rs, st') ->
  settled n st -> doms_of (g_dic st') n = doms_of (g_dic st) n.
Proof.
  induction cs as [|c cs IH]; intros J st rs st' n JI F R S; cbn [run] in R.
  - injection R as <- <-. reflexivity.
  - inversion F as [|? ? [K O] F']; subst. destruct (exec z c st) as [[r st1]|] eqn:E; [|discriminate]. cbn [obind] in R.
    destruct (run z cs st1) as [[rs1 st2]|] eqn:R1; [|discriminate]. cbn [obind] in R. injection R as <- <-.
    rewrite (IH (jstep c r J) st1 rs1 st2 n); try assumption.
    + eapply settled_doms; eassumption.
    + eapply jinv_step; eassumption.
    + eapply settled_step; eassumption.
Qed.
End Z.

(** ** C32 *)

(** What gdxSymbolSetDomain records for one name: zero for "*", else the number of a symbol
    of that name. *)
Definition dom_number (d : dic) (id : str) (n : Z) : Prop :=
  id = s2z "*" /\ n = 0 \/ id <> s2z "*" /\ 1 <= n /\ sym_find d id = n.
Definition same_keys (a b : dic) : Prop := List.map fst (d_names a) = List.map fst (d_names b).
Lemma same_keys_find : forall a b s, same_keys a b -> sym_find a s = sym_find b s.
Proof. intros a b s E. unfold sym_find. rewrite (sl_find_map true (fun x : sym => x) (d_names a) (d_names b) s E). reflexivity. Qed.
Lemma same_keys_upd : forall n f d, same_keys (upd_sym n f d) d.
Proof.
  intros n f d. unfold same_keys, upd_sym. destruct (znth (d_names d) (n - 1)) as [e|] eqn:E; [|reflexivity]. cbn [d_names set_d_names].
  assert (ZM : forall (l : list (str * sym)) k x, znth l k = Some e -> List.map fst (zset k (fst e, x) l) = List.map fst l).
  { intros l k x. unfold znth, zset. destruct (k <? 0); [discriminate|]. generalize (Z.to_nat k) as i. induction l as [|y l IH]; intros [|i]; cbn [nth_error set_nth List.map]; try reflexivity; try discriminate.
    - intros H. injection H as ->. reflexivity.
    - intros H. f_equal. apply IH. exact H. }
  apply ZM. exact E.
Qed.
Lemma get_sym_upd : forall n f d s, get_sym d n = Some s -> get_sym (upd_sym n f d) n = Some (f s).
Proof.
  intros n f d s H. apply get_sym_znth in H. destruct H as (nm & H). unfold upd_sym, get_sym. rewrite H. cbn [d_names set_d_names].
  rewrite znth_zset_eq by (eapply znth_Some; exact H). reflexivity.
Qed.
Lemma firstn_S_set : forall {A} i v (l : list A), (i < length l)%nat -> firstn (S i) (set_nth i v l) = firstn i l ++ [v].
Proof. induction i as [|i IH]; intros v [|a l] H; cbn in *; try lia; [reflexivity|]. f_equal. apply IH. lia. Qed.
Lemma set_nth_length : forall {A} i v (l : list A), length (set_nth i v l) = length l.
Proof. induction i as [|i IH]; intros v [|a l]; cbn; auto. Qed.
Lemma skipn_S_set : forall {A} i v (l : list A), skipn (S i) (set_nth i v l) = skipn (S i) l.
Proof. induction i as [|i IH]; intros v [|a l]; cbn; try reflexivity. apply IH. Qed.

Lemma skipn_plus : forall {A} k m (x : list A), skipn (k + m) x = skipn m (skipn k x).
Proof. induction k as [|k IH]; intros m [|a x]; cbn; try reflexivity; [symmetry; apply skipn_nil|apply IH]. Qed.

Lemma set_domains_result : forall cur ids i res st st' s l, set_domains cur ids i res st = Done (true, true, st') ->
  get_sym (g_dic st) cur = Some s -> sy_doms s = Some l -> (i + length ids <= length l)%nat ->
  res = true /\ same_keys (g_dic st') (g_dic st) /\
  exists s' ns, get_sym (g_dic st') cur = Some s' /\ sy_dstrs s' = sy_dstrs s /\ sy_doms s' = Some (firstn i l ++ ns ++ skipn (i + length ids) l) /\ Forall2 (dom_number (g_dic st)) ids ns.
Proof.
  induction ids as [|id ids IH]; intros i res st st' s l H G D L; cbn [set_domains] in H.
  - injection H as <- <-. split; [reflexivity|]. split; [reflexivity|]. exists s, []. split; [exact G|]. split; [reflexivity|]. cbn [length app]. rewrite Nat.add_0_r, firstn_skipn. auto.
  - cbn [length] in L. cbv zeta in H.
    assert (GO : forall v r1 st1, set_domains cur ids (S i) r1 st1 = Done (true, true, st') -> same_keys (g_dic st1) (g_dic st) ->
      get_sym (g_dic st1) cur = Some (set_sy_doms (Some (set_nth i v l)) s) -> (r1 = true -> res = true /\ dom_number (g_dic st) id v) ->
      res = true /\ same_keys (g_dic st') (g_dic st) /\
      exists s' ns, get_sym (g_dic st') cur = Some s' /\ sy_dstrs s' = sy_dstrs s /\ sy_doms s' = Some (firstn i l ++ ns ++ skipn (i + length (id :: ids)) l) /\ Forall2 (dom_number (g_dic st)) (id :: ids) ns).
    { intros v r1 st1 H1 K1 G1 R1. destruct (IH _ _ _ _ _ _ H1 G1 eq_refl) as (E & K2 & s' & ns & G2 & DS & D2 & F2).
      { rewrite set_nth_length. lia. }
      destruct (R1 E) as [RT DN]. split; [exact RT|]. split; [unfold same_keys in *; congruence|]. exists s', (v :: ns). split; [exact G2|]. split; [exact DS|]. split.
      - rewrite D2. f_equal. rewrite firstn_S_set by lia. rewrite <- app_assoc. f_equal. cbn [app length]. f_equal. f_equal.
        replace (i + S (length ids))%nat with (S i + length ids)%nat by lia.
        assert (SK : forall k (x y : list Z) m, skipn k x = skipn k y -> skipn (k + m) x = skipn (k + m) y).
        { intros k x y m E1. rewrite !skipn_plus, E1. reflexivity. }
        apply SK. apply skipn_S_set.
      - constructor; [exact DN|]. eapply Forall2_weaken; [|exact F2]. intros a b [X|(X1 & X2 & X3)]; [left; exact X|right]. rewrite (same_keys_find _ _ _ K1) in X3. auto. }
    assert (PUT : forall v st1, g_dic st1 = g_dic st -> get_sym (g_dic (upd_dic (upd_sym cur (fun s => set_sy_doms (option_map (set_nth i v) (sy_doms s)) s)) st1)) cur = Some (set_sy_doms (Some (set_nth i v l)) s)
       /\ same_keys (g_dic (upd_dic (upd_sym cur (fun s => set_sy_doms (option_map (set_nth i v) (sy_doms s)) s)) st1)) (g_dic st)).
    { intros v st1 E. cbn [upd_dic upd g_dic set_g_dic]. rewrite E. split; [|apply same_keys_upd]. rewrite (get_sym_upd _ _ _ _ G), D. reflexivity. }
    destruct (str_eqb id (s2z "*")) eqn:ST.
    { apply str_eqb_spec in ST. destruct (PUT 0 st eq_refl) as [P1 P2]. eapply (GO 0); [exact H|exact P2|exact P1|]. intros ->. split; [reflexivity|]. left. auto. }
    assert (NS : id <> s2z "*") by (intros ->; discriminate ST).
    destruct (Z.leb_spec (sym_find (g_dic st) id) 0).
    { destruct (PUT 0 (set_error ERR_UNKNOWNDOMAIN st) eq_refl) as [P1 P2]. eapply (GO 0); [exact H|exact P2|exact P1|discriminate]. }
    destruct (dom_resolve _ _ _ _) as [x|]; [|discriminate]. cbn [obind] in H. destruct (PUT (sym_find (g_dic st) id) st eq_refl) as [P1 P2].
    destruct x as [|t| |].
    + discriminate.
    + eapply (GO (sym_find (g_dic st) id)); [exact H| | |].
      * destruct (_ && _); exact P2.
      * destruct (_ && _); exact P1.
      * intros ->. split; [reflexivity|]. right. split; [exact NS|]. split; [lia|reflexivity].
    + eapply (GO (sym_find (g_dic st) id)); [exact H|exact P2|exact P1|]. intros ->. split; [reflexivity|]. right. split; [exact NS|]. split; [lia|reflexivity].
    + destruct (PUT 0 (set_error ERR_ALIASSETEXPECTED st) eq_refl) as [Q1 Q2]. eapply (GO 0); [exact H|exact Q2|exact Q1|discriminate].
Qed.

(** The symbol [n] is being written, judging by the calls and their answers. *)
Definition being_written (cs : list call) (rs : list resp) (n : Z) : Prop := j_number (jrun cs rs new_journal) = Some n.
(** [n] is what a name in a domain stands for: 0 for "*", else a symbol of that name. *)
Definition stands_for (z : zlib) (st : gst) (id : str) (n : Z) : Prop :=
  id = s2z "*" /\ n = 0 \/ exists nm dim typ, symbol z st n nm dim typ /\ upper nm = upper id.

Lemma dom_number_stands : forall z st id n, dom_number (g_dic st) id n -> stands_for z st id n.
Proof.
  intros z st id n [H|(_ & N & E)]; [left; exact H|right]. unfold sym_find in E. destruct (sl_find true (d_names (g_dic st)) id) as [k|] eqn:F; [|lia].
  apply sl_find_Some in F. destruct F as ([nm s] & E1 & E2). exists nm, (Z.of_nat (sy_dim s)), (sy_type s). split.
  - apply symbol_iff. exists s. replace (n - 1) with k by lia. auto.
  - apply same_text_spec in E2. exact E2.
Qed.

(** An accepted gdxSymbolSetDomain is what gdxSymbolGetDomain reports. *)
Theorem C32_setting_a_domain : forall z name prod compr cs rs st n nm dim typ ids st', writes_new z name prod compr cs rs st -> being_written cs rs n ->
  symbol z st n nm dim typ -> exec z (gdxSymbolSetDomain ids) st = Done (ret 1, st') ->
  exists ns, answers z st' (gdxSymbolGetDomain n) (ret_i 1 ns) /\ Forall2 (stands_for z st') (firstn (Z.to_nat dim) ids) ns.
Proof.
  intros z name prod compr cs rs st n nm dim typ ids st' W B SY H. destruct (writes_new_jinv _ _ _ _ _ _ _ W) as (JI & _).
  destruct (jinv_current _ _ _ _ _ _ JI B) as (C & _ & _). apply symbol_iff in SY. destruct SY as (s & SY & -> & _).
  assert (GS : get_sym (g_dic st) n = Some s) by (apply get_sym_znth; eauto).
  cbn [exec] in H. unfold symbol_set_domain, checked, refuse in H. destruct (mode_in _ _); [|discriminate H]. rewrite C, GS in H.
  destruct (Nat.ltb_spec (length ids) (sy_dim s)); [discriminate|]. cbv zeta in H.
  destruct (set_domains _ _ _ _ _) as [[[go res] st2]|] eqn:SD; [|discriminate]. cbn [obind] in H. destruct go; cbn [negb] in H; [|discriminate].
  destruct res; [|discriminate]. injection H as <-.
  set (s0 := set_sy_doms (Some (repeat 0 (sy_dim s))) s) in *.
  destruct (set_domains_result _ _ _ _ _ _ s0 (repeat 0 (sy_dim s)) SD) as (_ & K & s' & ns & G & _ & D & F).
  { cbn [upd_dic upd g_dic set_g_dic]. rewrite (get_sym_upd _ _ _ _ GS). reflexivity. }
  { reflexivity. }
  { rewrite repeat_length, firstn_length. lia. }
  rewrite Nat2Z.id. exists ns.
  assert (LN : length (firstn (sy_dim s) ids) = sy_dim s) by (rewrite firstn_length; lia).
  assert (DN : sy_doms s' = Some ns).
  { rewrite D. f_equal. cbn [firstn app]. rewrite skipn_all2 by (rewrite repeat_length; lia). apply app_nil_r. }
  split.
  - unfold answers. cbn [exec]. unfold symbol_get_domain. change (g_dic (set_g_mode _ st2)) with (g_dic st2). rewrite G, DN.
    replace (d_nn (g_dic st2)) with true; [cbn [negb]; eauto|]. symmetry.
    assert (NN : d_nn (g_dic st) = true).
    { destruct JI as [(t & GG & [CO _] & _)|(_ & Q)]; [apply (co_dic _ _ _ _ _ CO)|destruct Q as (_ & Q & _); congruence]. }
    destruct JI as [(t & GG & WI & _)|(_ & Q)]; [|destruct Q as (_ & Q & _); congruence].
    assert (W1 : winv z (new_head prod compr) (new_base z prod compr ++ t) GG (upd_dic (upd_sym n (set_sy_doms (Some (repeat 0 (sy_dim s))))) st)).
    { apply winv_upd_sym; [exact WI|intros; repeat split|]. intros s1 nn nd np E1 -> -> []. rewrite GS in E1. injection E1 as <-.
      constructor; auto. cbn. split; [apply repeat_length|]. apply Forall_forall. intros x I. apply repeat_spec in I. subst x. left. unfold int_ok, INT_MIN, INT_MAX. lia. }
    destruct (set_domains_step _ _ _ _ _ _ _ _ _ _ _ _ W1 SD) as ([CO2 _] & _). apply (co_dic _ _ _ _ _ CO2).
  - eapply Forall2_weaken; [|exact F]. intros a b X. apply dom_number_stands. change (g_dic (set_g_mode _ st2)) with (g_dic st2).
    destruct X as [X|(X1 & X2 & X3)]; [left; exact X|right]. rewrite (same_keys_find _ _ _ K). auto.
Qed.

(** It stays what gdxSymbolGetDomain reports, whatever is called until the file is closed. *)
Lemma get_domain_same : forall z a b n, doms_of (g_dic b) n = doms_of (g_dic a) n -> d_nn (g_dic a) = true -> d_nn (g_dic b) = true -> same_answer z a b (gdxSymbolGetDomain n).
Proof.
  intros z a b n E A B r. unfold answers. cbn [exec]. unfold symbol_get_domain. rewrite A, B. cbn [negb]. unfold doms_of in E.
  destruct (get_sym (g_dic a) n) as [s|], (get_sym (g_dic b) n) as [t|]; cbn in E; try discriminate.
  - injection E as E1 E2. rewrite E1, E2. destruct (sy_doms s); split; intros (x & H); injection H as <- _; eauto.
  - unfold fail_with. split; intros (x & H); injection H as <- _; eauto.
Qed.
Theorem C32_domains_stay : forall z name prod compr cs rs st n ids st' ds rs' st2, writes_new z name prod compr cs rs st -> being_written cs rs n ->
  exec z (gdxSymbolSetDomain ids) st = Done (ret 1, st') ->
  Forall call_ok [gdxSymbolSetDomain ids] -> Forall (fun c => keeps_writing c = true /\ call_ok c) ds -> run z ds st' = Done (rs', st2) ->
  same_answer z st' st2 (gdxSymbolGetDomain n).
Proof.
  intros z name prod compr cs rs st n ids st' ds rs' st2 W B H O F R. destruct (writes_new_jinv _ _ _ _ _ _ _ W) as (JI & _).
  assert (JI' : jinv z (new_head prod compr) (new_base z prod compr) (jstep (gdxSymbolSetDomain ids) (ret 1) (jrun cs rs new_journal)) st').
  { eapply jinv_step; [exact JI|reflexivity| |exact H]. inversion O; assumption. }
  pose proof (jinv_run _ _ _ _ _ _ _ _ JI' F R) as JI2.
  assert (NN : forall J s h b, jinv z h b J s -> j_phase J <> JLost -> d_nn (g_dic s) = true).
  { intros J s h b [(t & GG & [CO _] & _)|(L & Q)] NL; [apply (co_dic _ _ _ _ _ CO)|contradiction]. }
  assert (PH : j_phase (jrun cs rs new_journal) <> JLost) by (intros E; unfold being_written, j_number in B; rewrite E in B; discriminate).
  assert (JS : jstep (gdxSymbolSetDomain ids) (ret 1) (jrun cs rs new_journal) = jrun cs rs new_journal) by (unfold jstep; destruct (j_phase _); reflexivity).
  assert (S : settled n st').
  { destruct (jinv_current _ _ _ _ _ _ JI B) as (C & M & RG). destruct (jinv_current _ _ _ _ _ n JI') as (C' & M' & RG'); [rewrite JS; exact B|].
    split; [exact RG'|]. intros [I _]. cbn [exec] in H. unfold symbol_set_domain, checked, refuse in H. destruct (mode_in _ _) eqn:MI in H; [|discriminate H].
    rewrite C in H. destruct (get_sym _ _) as [s|] eqn:GS; [|discriminate]. destruct (_ <? _)%nat; [discriminate|]. cbv zeta in H. destruct (set_domains _ _ _ _ _) as [[[go res] st3]|] eqn:SD; [|discriminate].
    cbn [obind] in H. destruct go; cbn [negb] in H; [|discriminate]. injection H as _ <-.
    cbn [set_g_mode g_mode] in I. destruct (g_mode st3); cbn in I; intuition discriminate. }
  pose proof (settled_run _ _ _ _ _ _ _ _ _ JI' F R S) as E.
  assert (N1 : d_nn (g_dic st') = true) by (eapply NN; [exact JI'|rewrite JS; exact PH]).
  apply get_domain_same; [exact E|exact N1|].
  assert (D : during z ds st' st2). { destruct (keeps_all _ F) as [F1 F2]. split; [exact F1|]. split; [exact F2|]. eauto. }
  eapply (during_dic z (fun d => d_nn d = true)); [|exact D|exact N1]. intros c d d' _ A <-. apply (flags_keep _ _ _ A).
Qed.

(** *** Relaxed domains *)

(** The name that a relaxed domain gets for [id]: "*" unless [id] is an identifier. Names
    that differ in case only share their spelling. *)
Definition relaxed_name (id got : str) : Prop := wf_ident id /\ upper got = upper id \/ ~ wf_ident id /\ got = s2z "*".

Definition dstr_of (l : list (str * unit)) (n : Z) : option str := if n =? 0 then Some (s2z "*") else option_map fst (znth l (n - 1)).
Lemma dom_strings_result : forall ids l ns l', dom_strings ids l = (ns, l') ->
  (exists m, l' = l ++ m) /\ Forall2 (fun id n => exists got, dstr_of l' n = Some got /\ relaxed_name id got) ids ns.
Proof.
  induction ids as [|id ids IH]; intros l ns l' H; cbn [dom_strings] in H; [injection H as <- <-; split; [exists []; rewrite app_nil_r; reflexivity|constructor]|].
  assert (KEEP : forall (a m : list (str * unit)) k x, znth a k = Some x -> znth (a ++ m) k = Some x).
  { intros a m k x E. rewrite znth_app_l; [exact E|]. apply znth_Some in E. lia. }
  destruct (good_ident id) eqn:G.
  - apply good_ident_spec in G. destruct (sl_find true l id) as [n|] eqn:F.
    + destruct (dom_strings ids l) as [ns1 l1] eqn:D. injection H as <- <-. destruct (IH _ _ _ D) as ((m & ->) & FA). split; [eauto|]. constructor; [|exact FA].
      pose proof (sl_find_range _ _ _ _ F) as RG. apply sl_find_Some in F. destruct F as ([got []] & E1 & E2). exists got. split; [|left; split; [exact G|apply same_text_spec in E2; exact E2]].
      unfold dstr_of. replace (n + 1 =? 0) with false by lia. replace (n + 1 - 1) with n by lia. rewrite (KEEP _ _ _ _ E1). reflexivity.
    + destruct (dom_strings ids (l ++ [(id, tt)])) as [ns1 l1] eqn:D. injection H as <- <-. destruct (IH _ _ _ D) as ((m & ->) & FA). split; [exists ((id, tt) :: m); rewrite <- app_assoc; reflexivity|].
      constructor; [|exact FA]. exists id. split; [|left; auto]. unfold dstr_of. pose proof (zlen_nonneg l). replace (zlen l + 1 =? 0) with false by lia. replace (zlen l + 1 - 1) with (zlen l) by lia.
      rewrite (KEEP (l ++ [(id, tt)]) m (zlen l) (id, tt)); [reflexivity|]. rewrite znth_snoc. destruct (Z.eqb_spec (zlen l) (zlen l)); [reflexivity|lia].
  - destruct (dom_strings ids l) as [ns1 l1] eqn:D. injection H as <- <-. destruct (IH _ _ _ D) as ((m & ->) & FA). split; [eauto|]. constructor; [|exact FA].
    exists (s2z "*"). split; [reflexivity|]. right. split; [|reflexivity]. rewrite <- good_ident_spec, G. discriminate.
Qed.
Lemma dom_names_dstr : forall l ns ids, Forall2 (fun id n => exists got, dstr_of l n = Some got /\ relaxed_name id got) ids ns ->
  exists ss, dom_names (fun k => option_map fst (znth l (k - 1))) ns = Done ss /\ Forall2 relaxed_name ids ss.
Proof.
  induction 1 as [|id n ids ns (got & E & RN) F (ss & IH & IF)]; [exists []; split; [reflexivity|constructor]|].
  exists (got :: ss). split; [|constructor; assumption]. cbn [dom_names]. unfold dstr_of in E. destruct (n =? 0); [injection E as <-|rewrite E]; cbn [obind]; rewrite IH; reflexivity.
Qed.

(** What gdxSymbolSetDomainX accepted is what gdxSymbolGetDomainX reports, with code 2. *)
Theorem C32_setting_relaxed : forall z st n nm dim typ ids st', symbol z st n nm dim typ -> 0 < dim ->
  exec z (gdxSymbolSetDomainX n ids) st = Done (ret 1, st') ->
  exists ss, answers z st' (gdxSymbolGetDomainX n) (ret_s 2 ss) /\ Forall2 relaxed_name (firstn (Z.to_nat dim) ids) ss.
Proof.
  intros z st n nm dim typ ids st' SY DP H. apply symbol_iff in SY. destruct SY as (s & SY & -> & _).
  assert (GS : get_sym (g_dic st) n = Some s) by (apply get_sym_znth; eauto).
  cbn [exec] in H. unfold symbol_set_domain_x in H. destruct (d_nn (g_dic st)) eqn:NN; [cbn [negb] in H|discriminate].
  destruct (negb _) in H; [discriminate|]. rewrite GS in H. destruct (Nat.eqb_spec (sy_dim s) 0); [lia|].
  destruct (_ || _)%bool; [discriminate|]. destruct (dom_strings _ _) as [ns l] eqn:D. injection H as <-.
  destruct (dom_strings_result _ _ _ _ D) as (_ & F). destruct (dom_names_dstr _ _ _ F) as (ss & E & F2). rewrite Nat2Z.id. exists ss. split; [|exact F2].
  unfold answers. cbn [exec]. unfold symbol_get_domain_x. cbn [upd_dic upd g_dic set_g_dic].
  assert (GS1 : get_sym (set_d_dstrs l (g_dic st)) n = Some s) by exact GS.
  rewrite (get_sym_upd _ _ _ _ GS1). cbn [set_sy_dstrs sy_dstrs].
  replace (d_nn (upd_sym _ _ _)) with true by (unfold upd_sym; destruct (znth _ _) as [[]|]; cbn; rewrite ?NN; reflexivity). cbn [negb].
  replace (d_dstrs (upd_sym _ _ _)) with l by (unfold upd_sym; destruct (znth _ _) as [[]|]; reflexivity).
  rewrite E. cbn [obind]. eauto.
Qed.

Definition no_relaxed (n : Z) (cs : list call) : Prop := forall ids, ~ In (gdxSymbolSetDomainX n ids) cs.
Lemma dom_names_more : forall l m ns ss, dom_names (fun k => option_map fst (znth l (k - 1))) ns = Done ss -> dom_names (fun k => option_map fst (@znth (str * unit) (l ++ m) (k - 1))) ns = Done ss.
Proof.
  induction ns as [|n ns IH]; intros ss H; [exact H|]. cbn [dom_names] in *. destruct (n =? 0); cbn [obind] in *.
  - destruct (dom_names _ ns) as [t|] in H, IH; [|discriminate]. rewrite (IH _ eq_refl). exact H.
  - destruct (znth l (n - 1)) as [x|] eqn:E; [|discriminate]. rewrite znth_app_l by (apply znth_Some in E; lia). rewrite E. cbn [option_map obind] in *.
    destruct (dom_names _ ns) as [t|] in H, IH; [|discriminate]. rewrite (IH _ eq_refl). exact H.
Qed.
(** It stays, whatever is called, until the next gdxSymbolSetDomainX for that symbol. *)
Theorem C32_relaxed_stays : forall z cs a b n ss, during z cs a b -> no_relaxed n cs -> answers z a (gdxSymbolGetDomainX n) (ret_s 2 ss) ->
  answers z b (gdxSymbolGetDomainX n) (ret_s 2 ss).
Proof.
  intros z cs a b n ss D NR A.
  set (I := fun d => d_nn d = true /\ exists s l, get_sym d n = Some s /\ sy_dstrs s = Some l /\ dom_names (fun k => option_map fst (znth (d_dstrs d) (k - 1))) l = Done ss).
  assert (Q : forall st, answers z st (gdxSymbolGetDomainX n) (ret_s 2 ss) <-> I (g_dic st)).
  { intros st. unfold answers, I. cbn [exec]. unfold symbol_get_domain_x. destruct (d_nn (g_dic st)); cbn [negb]; [|split; [intros (x & H); discriminate|intros ([=] & _)]].
    destruct (get_sym (g_dic st) n) as [s|]; [|split; [intros (x & H); discriminate H|intros (_ & s & l & [=] & _)]].
    destruct (sy_dstrs s) as [l|] eqn:E.
    - destruct (dom_names _ l) as [t|] eqn:DN; cbn [obind]; split.
      + intros (x & H). injection H as -> _. split; [reflexivity|]. exists s, l. rewrite DN. auto.
      + intros (_ & s' & l' & [= <-] & E2 & E3). rewrite E in E2. injection E2 as <-. rewrite DN in E3. injection E3 as ->. eauto.
      + intros (x & H); discriminate.
      + intros (_ & s' & l' & [= <-] & E2 & E3). rewrite E in E2. injection E2 as <-. rewrite DN in E3. discriminate.
    - split; [|intros (_ & s' & l' & [= <-] & E2 & _); congruence]. intros (x & H). destruct (sy_doms s); [|discriminate].
      destruct (dom_names _ _); cbn [obind] in H; discriminate. }
  apply Q. apply Q in A. eapply (during_dic z I); [|exact D|exact A]. clear - NR. intros c d d' IC DA (NN & s & l & G & E & DN).
  destruct (flags_keep _ _ _ DA) as (F1 & _). split; [congruence|]. destruct (dstrs_grow_step _ _ _ DA) as (m & DG).
  assert (exists s', get_sym d' n = Some s' /\ sy_dstrs s' = Some l) as (s' & G' & E').
  { apply get_sym_znth in G. destruct G as (nm & G). destruct (names_cases _ _ _ DA) as [X|[(nm' & s' & _ & _ & _ & _ & X)|(k & e & s' & X1 & X2 & X)]].
    - exists s. split; [|exact E]. apply get_sym_znth. rewrite X. eauto.
    - exists s. split; [|exact E]. apply get_sym_znth. exists nm. rewrite X. rewrite znth_app_l; [exact G|]. apply znth_Some in G. lia.
    - destruct (Z.eq_dec k n) as [->|N].
      + assert (e = (nm, s)) by congruence. subst e. cbn [fst snd] in *. exists s'. split; [apply get_sym_znth; exists nm; rewrite X; apply znth_zset_eq; apply znth_Some in G; lia|].
        destruct X2 as [X2|[(ids & f & _ & ->)|[(ids & ns & -> & ->)|(j & t & _ & _ & ->)]]]; cbn; try exact E.
        * destruct X2 as (_ & _ & _ & _ & _ & _ & _ & X2 & _). congruence.
        * destruct (NR _ IC).
      + exists s. split; [|exact E]. apply get_sym_znth. exists nm. rewrite X, znth_zset_neq; [exact G|]. lia. }
  exists s', l. split; [exact G'|]. split; [exact E'|]. rewrite DG. apply dom_names_more. exact DN.
Qed.

(** Reopening the file finds the domains of both kinds again. *)
Theorem C32_domains_after_reopening : forall z name prod compr cs rs st st2 n, reopened z name prod compr cs rs st st2 ->
  same_answer z st st2 (gdxSymbolGetDomain n) /\ same_answer z st st2 (gdxSymbolGetDomainX n).
Proof. intros z name prod compr cs rs st st2 n R. split; eapply C20_metadata_is_found_again; try exact R; constructor. Qed.

(** ** The hypotheses are met *)

(** A session that has just started to write a parameter. *)
Definition dom_calls : list call := case_calls ++ [gdxDataWriteStrStart (s2z "p") [] 3 dt_par 0].
Definition dom_answers : list resp := answer_of (run rle_zlib dom_calls case_start).
Definition dom_state : gst := state_of (run rle_zlib dom_calls case_start).
Lemma dom_writes : writes_new rle_zlib (s2z "f.gdx") (s2z "a test") 1 dom_calls dom_answers dom_state /\ being_written dom_calls dom_answers 8.
Proof.
  split; [|vm_compute; reflexivity].
  exists case_object, case_start, (ret_i 1 [0]). split; [vm_compute; reflexivity|]. split; [reflexivity|]. split; [apply str_okb_ok; vm_compute; reflexivity|].
  split; [apply calls_okb_ok; vm_compute; reflexivity|]. vm_compute. reflexivity.
Qed.
Example C32_case_domain : exists st', exec rle_zlib (gdxSymbolSetDomain [s2z "iii"; s2z "*"; s2z "I"]) dom_state = Done (ret 1, st') /\
  answers rle_zlib st' (gdxSymbolGetDomain 8) (ret_i 1 [3; 0; 1]) /\ answers rle_zlib st' (gdxSymbolGetDomainX 8) (ret_s 3 [s2z "III"; s2z "*"; s2z "I"]).
Proof. eexists. split; [vm_compute; reflexivity|]. split; ans. Qed.
Example C32_case_relaxed : exists st', exec rle_zlib (gdxSymbolSetDomainX 8 [s2z "nowhere"; s2z "*"; s2z "i"]) dom_state = Done (ret 1, st') /\
  answers rle_zlib st' (gdxSymbolGetDomainX 8) (ret_s 2 [s2z "nowhere"; s2z "*"; s2z "I"]).
Proof. eexists. split; [vm_compute; reflexivity|]. ans. Qed.
Example C32_case_reopened : answers rle_zlib case_read (gdxSymbolGetDomain 5) (ret_i 1 [1]).
Proof. refine (proj1 (proj1 (C32_domains_after_reopening _ _ _ _ _ _ _ _ 5 case_reopened) _) _). ans. Qed.

Print Assumptions C32_setting_a_domain.
Print Assumptions C32_domains_stay.
Print Assumptions C32_setting_relaxed.
Print Assumptions C32_relaxed_stays.
Print Assumptions C32_domains_after_reopening.
