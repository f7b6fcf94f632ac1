(** * WriteTrace: any sequence of calls while a file is being written

    Every call that does not leave the writing session keeps the invariant of WriteInv.v,
    with the records the journal has noted. *)

From Coq Require Import String Sorted Permutation.
From Verif Require Import Base Prim Values Records LinkedData StrHash IntMap Strings AStream BufStream State StateTac
  FileImage ApiCore ApiFile ApiWrite ApiRead Api FileFacts BlockFacts StreamFacts OpenFacts DicInv WriteInv WriteSteps Journal WriteCalls.
Open Scope Z_scope.
Open Scope list_scope.

(** Calls after which the object is still writing the same file.  The others open, close or
    destroy, or are read calls that take the object out of its writing mode even though it
    is not reading (gxfile.cpp 925-927, 1086-1110). *)
Definition keeps_writing (c : call) : bool :=
  match c with
  | gdxOpenWriteEx _ _ _ | gdxOpenReadEx _ _ | gdxOpenAppend _ | gdxClose | gdxFree
  | gdxDataReadRawStart _ | gdxDataReadStrStart _ | gdxDataReadMapStart _ | gdxDataReadFilteredStart _ _ | gdxDataReadDone
  | gdxDataReadRawFast _ | gdxDataReadRawFastEx _ _ | gdxDataReadRawFastFilt _ _ _ | gdxDataReadSliceStart _
  | gdxGetDomainElements _ _ _ _ => false
  | _ => true
  end.

Section Z.
Context (z : zlib).
Notation winv := (winv z).

(** ** A lost session stays lost *)

Lemma dead_err : forall e st, dead st -> dead (set_error e st).
Proof. intros e st D. destruct (set_error_eq e st) as (f & -> & _). exact D. Qed.
Lemma dead_err_only : forall st st', err_only st st' -> dead st -> dead st'.
Proof. intros st st' (f & -> & _) D. exact D. Qed.
Lemma dead_dic : forall d st, dead st -> dead (set_g_dic d st).
Proof. intros d st D. exact D. Qed.
Lemma dead_calm : forall st st', mode_step (g_mode st) (g_mode st') -> w_cur (g_wrk st') = w_cur (g_wrk st) ->
  w_sort (g_wrk st') = w_sort (g_wrk st) -> dead st -> dead st'.
Proof.
  intros st st' M A B (D1 & D2 & D3). split; [|split; congruence]. destruct M; auto; unfold data_modes in *; cbn; auto 10.
Qed.
Lemma dead_enter : forall a b st, mode_step a b -> dead st -> dead (enter a b st).
Proof.
  intros a b st M D. destruct (calm_enter a b st M) as (A1 & A2 & (A3 & A4 & A5 & A6 & A7 & A8 & A9 & A10) & A11).
  eapply dead_calm; eassumption.
Qed.

Lemma dead_prepare : forall name text dim typ uinfo st ok st', dead st ->
  prepare_symbol_write z name text dim typ uinfo st = Done (ok, st') -> ok = false /\ dead st'.
Proof.
  intros name text dim typ uinfo st ok st' (D1 & D2 & D3) H. unfold prepare_symbol_write in H.
  match type of H with context [mode_in ?m [fw_init]] => assert (M : mode_in m [fw_init] = false) end.
  { change (mode_in (g_mode st) [fw_init] = false). destruct (mode_in (g_mode st) [fw_init]) eqn:Q; [|reflexivity]. apply mode_in_true in Q.
    destruct Q as [Q|[]]. rewrite <- Q in D1. unfold data_modes in D1. cbn in D1. intuition discriminate. }
  rewrite M in H. cbn [negb] in H. injection H as <- <-. split; [reflexivity|]. apply dead_err. split; [exact D1|split; reflexivity].
Qed.

Lemma dead_do_write : forall keys vals st ok st', dead st -> do_write z keys vals st = Done (ok, st') -> ok = false /\ err_only st st'.
Proof.
  intros keys vals st ok st' (D1 & D2 & D3) H. unfold do_write in H. cbv zeta in H.
  destruct (_ || _); [discriminate|]. destruct (any_violation _ _ _).
  - injection H as <- <-. split; [reflexivity|]. eapply err_only_trans; [apply err_only_set_error|apply err_only_add_dom_error].
  - obind_inv H. destruct x as [| |bs last].
    + injection H as <- <-. split; [reflexivity|]. eapply err_only_trans; [apply err_only_set_error|apply err_only_add_error].
    + injection H as <- <-. split; [reflexivity|]. eapply err_only_trans; [apply err_only_set_error|apply err_only_add_error].
    + exfalso. obind_inv H. apply s_write_inv in E0. destruct E0 as (s & s' & _ & _ & ->). obind_inv H. cbv zeta in H.
      match type of H with context [cur_sym ?X] => assert (Q : cur_sym X = UB) end.
      { unfold cur_sym. cbn. rewrite D2. reflexivity. }
      rewrite Q in H. discriminate.
Qed.

Lemma dead_not_in : forall st l, dead st -> forallb (fun m => negb (mode_in m l)) data_modes = true -> mode_in (g_mode st) l = false.
Proof.
  intros st l [D _] F. rewrite forallb_forall in F. specialize (F _ D). destruct (mode_in (g_mode st) l); [discriminate|reflexivity].
Qed.

Lemma str_keys_dead : forall keys i st b st', dead st -> str_keys keys i st = Done (b, st') -> dead st'.
Proof.
  induction keys as [| s keys IH]; intros i st b st' D H; cbn [str_keys] in H.
  - injection H as <- <-. exact D.
  - cbv zeta in H. destruct (nth_error _ i); [|discriminate]. destruct (nth_error _ i); [|discriminate]. destruct (nth_error _ i); [|discriminate].
    obind_inv H. destruct x as [[[[c' n] mm'] d']|].
    + eapply IH; [|exact H]. exact D.
    + injection H as <- <-. apply dead_err. exact D.
Qed.

Lemma dead_step : forall c st r st', dead st -> keeps_writing c = true -> exec z c st = Done (r, st') -> dead st'.
Proof.
  intros c st r st' D K H. destruct (looks c) eqn:L.
  { eapply dead_err_only; [|exact D]. eapply looks_err_only; [exact L|apply dead_write_mode; exact D|exact H]. }
  destruct c; try discriminate K; try discriminate L; cbn [exec] in H.
  - unfold write_raw_start in H. obind_inv H. destruct x as [ok st1]. destruct (dead_prepare _ _ _ _ _ _ _ _ D E) as [-> D1]. injection H as <- <-. exact D1.
  - unfold write_raw_start_bounds in H. obind_inv H. destruct x as [ok st1]. destruct (dead_prepare _ _ _ _ _ _ _ _ D E) as [-> D1]. injection H as <- <-. exact D1.
  - unfold write_raw in H. pose proof (dead_enter _ _ _ ms_raw D) as D1. set (st1 := enter _ _ _) in *. clearbody st1.
    unfold checked, refuse in H. destruct (mode_in _ _); [|injection H as <- <-; apply dead_err; exact D1].
    obind_inv H. destruct x as [ok st2]. injection H as <- <-. destruct (dead_do_write _ _ _ _ _ D1 E) as [_ EO]. eapply dead_err_only; eassumption.
  - unfold write_map_start in H. obind_inv H. destruct x as [ok st1]. destruct (dead_prepare _ _ _ _ _ _ _ _ D E) as [-> D1]. injection H as <- <-. exact D1.
  - unfold write_map in H. pose proof (dead_enter _ _ _ ms_map D) as D1. set (st1 := enter _ _ _) in *. clearbody st1.
    unfold checked, refuse in H. destruct (mode_in _ _); [|injection H as <- <-; apply dead_err; exact D1]. cbv zeta in H.
    destruct (_ || _); [discriminate|]. destruct (map_keys _ _ _) as [mr mms]. destruct mr.
    + exfalso. obind_inv H. unfold add_item in E. cbn [upd_wrk upd g_wrk set_g_wrk w_sort set_w_mms] in E.
      destruct D1 as (_ & _ & D3). rewrite D3 in E. discriminate.
    + unfold fail_with in H. injection H as <- <-. apply dead_err. exact D1.
  - unfold write_str_start in H. obind_inv H. destruct x as [ok st1]. destruct (dead_prepare _ _ _ _ _ _ _ _ D E) as [-> D1]. injection H as <- <-. exact D1.
  - unfold write_str in H. pose proof (dead_enter _ _ _ ms_str D) as D1. set (st1 := enter _ _ _) in *. clearbody st1.
    unfold checked, refuse in H. destruct (mode_in _ _); [|injection H as <- <-; apply dead_err; exact D1]. cbv zeta in H.
    destruct (_ || _); [discriminate|]. obind_inv H. destruct x as [ok st2]. pose proof (str_keys_dead _ _ _ _ _ D1 E) as D2. destruct ok.
    + exfalso. obind_inv H. unfold add_item in E0. destruct D2 as (_ & _ & D3). rewrite D3 in E0. discriminate.
    + injection H as <- <-. exact D2.
  - exfalso. unfold data_write_done, checked, refuse in H. destruct D as (D1 & D2 & D3).
    assert (M : mode_in (g_mode st) [fw_raw_data; fw_map_data; fw_str_data; fw_dom_raw; fw_dom_map; fw_dom_str] = true).
    { apply mode_in_true. unfold data_modes in D1. cbn in D1 |- *. intuition. }
    rewrite M in H. obind_inv H. unfold write_done in E. rewrite D3 in E. destruct (mode_in (g_mode st) [fw_raw_data; fw_dom_raw]); [|discriminate].
    cbn [obind] in E. obind_inv E. apply s_write_inv in E0. destruct E0 as (s & s' & _ & _ & ->).
    obind_inv E. match goal with X : (Z * gst)%type |- _ => destruct X as [p st2] end. apply s_getpos_inv in E0. destruct E0 as (s0 & s1 & _ & _ & ->). cbv zeta in E.
    match type of E with context [cur_sym ?X] => assert (Q : cur_sym X = UB) end.
    { unfold cur_sym. cbn. rewrite D2. reflexivity. }
    rewrite Q in E. discriminate.
  - unfold symbol_set_domain, checked, refuse in H. destruct (mode_in _ _); [|injection H as <- <-; apply dead_err; exact D].
    destruct D as (D1 & D2 & D3). rewrite D2 in H. injection H as <- <-. split; auto.
  - unfold symbol_set_domain_x, okay, fail_with in H. cbv zeta in H. destruct (negb _); [discriminate|]. destruct (negb _); [injection H as <- <-; apply dead_err; exact D|].
    destruct (get_sym _ _) as [s|]; [|discriminate]. destruct (Nat.eqb _ _); [injection H as <- <-; exact D|]. destruct (_ || _); [discriminate|].
    destruct (dom_strings _ _) as [ns l]. injection H as <- <-. exact D.
  - unfold add_alias, checked, refuse, okay, fail_with in H. destruct (mode_in _ _); [|injection H as <- <-; apply dead_err; exact D]. cbv zeta in H.
    destruct (negb _); [injection H as <- <-; apply dead_err; exact D|].
    match type of H with (let '(n, name) := ?X in _) = _ => destruct X as [n name] end.
    match type of H with match ?X with _ => _ end = _ => destruct X as [t|]; [|discriminate] end.
    match type of H with (if ?B then _ else _) = _ => destruct B; [injection H as <- <-; apply dead_err; exact D|] end.
    destruct (good_new_symbol name st) as [ok st1] eqn:GN.
    destruct (good_new_symbol_cases _ _ _ _ GN) as [(-> & -> & GI & _)|(-> & e & ->)]; cbn [negb] in H; [|injection H as <- <-; apply dead_err; exact D].
    obind_inv H. injection H as <- <-. exact D.
  - unfold symbol_add_comment, checked, refuse, okay, fail_with in H. destruct (mode_in _ _); [|injection H as <- <-; apply dead_err; exact D].
    obind_inv H. destruct x; injection H as <- <-; [exact D|apply dead_err; exact D].
  - unfold add_set_text in H. destruct (d_texts _); [|injection H as <- <-; exact D]. destruct (sl_add _ _ _ _). injection H as <- <-. exact D.
  - unfold set_text_node_nr, okay in H. destruct (d_texts _); [|injection H as <- <-; exact D]. destruct (znth _ _) as [[t v]|]; [|injection H as <- <-; exact D].
    destruct v; injection H as <- <-; exact D.
  - unfold register_raw_start, checked, refuse in H. rewrite dead_not_in in H by (exact D || reflexivity). injection H as <- <-. apply dead_err. exact D.
  - unfold register_raw, checked, refuse in H. rewrite dead_not_in in H by (exact D || reflexivity). injection H as <- <-. apply dead_err. exact D.
  - unfold register_str_start, checked, refuse in H. rewrite dead_not_in in H by (exact D || reflexivity). injection H as <- <-. apply dead_err. exact D.
  - unfold register_str, checked, refuse in H. rewrite dead_not_in in H by (exact D || reflexivity). injection H as <- <-. apply dead_err. exact D.
  - unfold register_map_start, checked, refuse in H. rewrite dead_not_in in H by (exact D || reflexivity). injection H as <- <-. apply dead_err. exact D.
  - unfold register_map, checked, refuse in H. obind_inv H. rewrite dead_not_in in H by (exact D || reflexivity). injection H as <- <-. apply dead_err. exact D.
  - unfold register_done, checked, refuse in H. rewrite dead_not_in in H by (exact D || reflexivity). injection H as <- <-. apply dead_err. exact D.
  - unfold rename_uel in H. cbv zeta in H. destruct (negb _); [injection H as <- <-; exact D|]. obind_inv H. destruct (negb _); [injection H as <- <-; exact D|].
    obind_inv H. destruct (_ <? 0); [injection H as <- <-; exact D|]. destruct (0 <=? _); [injection H as <- <-; exact D|]. destruct (znth _ _); [|discriminate].
    injection H as <- <-. exact D.
  - unfold acronym_add in H. cbv zeta in H. destruct (negb _); [discriminate|]. destruct (acro_check _ _ _ _); injection H as <- <-; [exact D|exact D|apply dead_err; exact D].
  - unfold acronym_set_info, okay, fail_with in H. cbv zeta in H. destruct (negb _); [discriminate|]. destruct (znth _ _) as [a|]; [|discriminate].
    destruct (_ || _).
    + destruct (good_new_symbol name st) as [ok st1] eqn:GN.
      destruct (good_new_symbol_cases _ _ _ _ GN) as [(-> & -> & _)|(-> & e & ->)]; cbn [negb] in H.
      * destruct (ac_auto a); [injection H as <- <-; exact D|]. destruct (_ =? _); injection H as <- <-; [exact D|apply dead_err; exact D].
      * injection H as <- <-. apply dead_err, dead_err. exact D.
    + destruct (negb _); [|injection H as <- <-; exact D]. destruct (negb _); [injection H as <- <-; apply dead_err; exact D|].
      destruct (existsb _ _); injection H as <- <-; [apply dead_err; exact D|exact D].
  - unfold acronym_next_nr in H. injection H as <- <-. destruct (0 <=? nv); exact D.
  - unfold set_special, fail_with, okay in H. destruct (_ <? 5)%nat; [discriminate|]. cbv zeta in H. destruct (has_dup _); injection H as <- <-; [apply dead_err; exact D|exact D].
  - unfold set_read_special, okay in H. destruct (_ <? 5)%nat; [discriminate|]. injection H as <- <-. exact D.
  - injection H as <- <-. exact D.
  - injection H as <- <-. exact D.
  - injection H as <- <-. exact D.
  - injection H as <- <-. exact D.
Qed.

(** ** The journal and the invariant *)

Definition jph (p : jphase) (G : ghost) (st : gst) : Prop :=
  match p with
  | JIdle => gC G = GIdle /\ g_mode st = fw_init
  | JReg => gC G = GIdle /\ In (g_mode st) reg_modes
  | JRaw n dim dsize mms recs ok =>
      gC G = GRaw n (if ok then Some recs else None) /\ w_dim (g_wrk st) = dim /\ w_dsize (g_wrk st) = dsize /\ w_mms (g_wrk st) = mms
  | JBuf n => exists items, gC G = GBuf n items
  | JLost => False
  end.

(** What the journal knows of a symbol's records is what its block contains. *)
Definition noted (j g : option (list srec)) : Prop := j = None \/ j = g.

Record jrel (J : journal) (G : ghost) (st : gst) : Prop := mkJR {
  jr_tab : j_tab J = e_tab (g_env st);
  jr_syms : Forall2 noted (j_syms J) (gR G);
  jr_phase : jph (j_phase J) G st
}.

Lemma mode_step_reg : forall m m', mode_step m m' -> In m reg_modes -> m' = m.
Proof. intros m m' [] I; [reflexivity|cbn in I; intuition discriminate..]. Qed.

Lemma jrel_calm : forall J G st st', jrel J G st -> calm st st' -> jrel J G st'.
Proof.
  intros J G st st' [T S P] (C1 & C2 & (C3 & C4 & C5 & C6 & C7 & C8 & C9 & C10) & C11). constructor; [congruence|exact S|].
  unfold jph in *. destruct (j_phase J) as [| |n dim dsize mms recs ok|n|].
  - destruct P as [P1 P2]. split; [exact P1|]. rewrite P2 in C1. inversion C1. congruence.
  - destruct P as [P1 P2]. split; [exact P1|]. rewrite (mode_step_reg _ _ C1 P2). exact P2.
  - destruct P as (P1 & P2 & P3 & P4). rewrite C4, C5, C6. auto.
  - exact P.
  - exact P.
Qed.

Definition good (h : fhead) (base0 : list Z) (J : journal) (st : gst) : Prop :=
  exists t G, winv h (base0 ++ t) G st /\ jrel J G st.
Definition jinv (h : fhead) (base0 : list Z) (J : journal) (st : gst) : Prop :=
  good h base0 J st \/ (j_phase J = JLost /\ dead st).

Lemma jr_not_lost : forall J G st, jrel J G st -> j_phase J <> JLost.
Proof. intros J G st [_ _ P] E. rewrite E in P. exact P. Qed.

Lemma jrel_idle : forall J G st, jrel J G st -> gC G = GIdle -> j_phase J = JIdle \/ j_phase J = JReg.
Proof.
  intros J G st [_ _ P] E. destruct (j_phase J) as [| |n dim dsize mms recs ok|n|]; auto; cbn in P.
  - destruct P as [P _]. congruence.
  - destruct P as [? P]. congruence.
  - destruct P.
Qed.

Lemma noted_None : forall l G, Forall2 noted l G -> Forall2 noted (l ++ [None]) (G ++ [None]).
Proof. intros l G F. apply Forall2_app; [exact F|]. constructor; [left; reflexivity|constructor]. Qed.

Lemma noted_zlen : forall l G, Forall2 noted l G -> zlen l = zlen G.
Proof. intros l G F. unfold zlen. f_equal. eapply Forall2_length. exact F. Qed.

Lemma noted_zset : forall l G i o o', Forall2 noted l G -> noted o' o -> Forall2 noted (zset i o' l) (zset i o G).
Proof. intros. apply Forall2_zset2; assumption. Qed.

(** A refused start. *)
Lemma start_refused : forall h base0 J G t st r st' ph, winv h (base0 ++ t) G st -> jrel J G st ->
  refused_start z h (base0 ++ t) G st r st' -> jinv h base0 (j_start r ph J) st'.
Proof.
  intros h base0 J G t st r st' ph W R (-> & E1 & E2 & E3 & E4 & [[C W']|[C D]]).
  - left. exists t, G. split; [exact W'|]. assert (JJ : j_start (ret 0) ph J = J).
    { unfold j_start. destruct (jrel_idle _ _ _ R C) as [-> | ->]; reflexivity. }
    rewrite JJ. destruct R as [T S P]. constructor; [congruence|exact S|].
    unfold jph in *. destruct (j_phase J) as [| |n dim dsize mms recs ok|n|]; rewrite ?E3; auto.
    destruct P as [P _]. congruence.
  - right. split; [|exact D]. unfold j_start. destruct R as [T S P]. destruct (j_phase J) as [| |n dim dsize mms recs ok|n|]; auto; cbn in P; destruct P as [P _]; contradiction.
Qed.

Lemma start_accepted : forall h base0 J G t st st' ph, jrel J G st -> gC G = GIdle -> g_mode st = fw_init -> g_env st' = g_env st ->
  forall c, winv h (base0 ++ t) (mkG (gR G ++ [None]) c) st' -> jph ph (mkG (gR G ++ [None]) c) st' ->
  jinv h base0 (j_start (ret 1) ph J) st'.
Proof.
  intros h base0 J G t st st' ph R C M E c W P. left. exists t, (mkG (gR G ++ [None]) c). split; [exact W|].
  destruct R as [T S Q]. assert (PH : j_phase J = JIdle).
  { destruct (jrel_idle _ _ _ (mkJR _ _ _ T S Q) C) as [A|A]; [exact A|]. rewrite A in Q. destruct Q as [_ Q]. rewrite M in Q. cbn in Q. intuition discriminate. }
  unfold j_start. rewrite PH. change (r_code (ret 1) =? 1) with true. cbv iota. constructor; cbn [j_tab j_syms j_phase gR].
  - congruence.
  - apply noted_None. exact S.
  - exact P.
Qed.

Lemma jstep_phase : forall c r J, j_phase J <> JLost -> jstep c r J =
  match c with
  | gdxDataWriteRawStart _ _ dim typ _ => j_start r (j_raw dim typ (repeat (0, INT_MAX) (Z.to_nat dim)) J) J
  | gdxDataWriteRawStartKeyBounds _ _ dim typ _ lo hi =>
      j_start r (j_raw dim typ (combine (firstn (Z.to_nat dim) lo) (firstn (Z.to_nat dim) hi)) J) J
  | gdxDataWriteMapStart _ _ _ _ _ | gdxDataWriteStrStart _ _ _ _ _ => j_start r (JBuf (zlen (j_syms J) + 1)) J
  | gdxDataWriteRaw keys vals =>
      match j_phase J with
      | JRaw n dim dsize mms recs ok =>
          if r_code r =? 1 then
            mkJ (j_tab J) (j_syms J)
              (JRaw n dim dsize mms (recs ++ [(firstn dim keys, List.map (classify (j_tab J)) (firstn dsize vals))])
                 (ok && inside mms (firstn dim keys)))
          else J
      | _ => J
      end
  | gdxDataWriteDone =>
      match j_phase J with
      | JRaw n _ _ _ recs ok => mkJ (j_tab J) (if ok then zset (n - 1) (Some recs) (j_syms J) else j_syms J) JIdle
      | JBuf n => mkJ (j_tab J) (j_syms J) JIdle
      | _ => J
      end
  | gdxUELRegisterRawStart | gdxUELRegisterMapStart | gdxUELRegisterStrStart =>
      match j_phase J with
      | JIdle => mkJ (j_tab J) (j_syms J) JReg
      | _ => J
      end
  | gdxUELRegisterDone =>
      match j_phase J with
      | JReg => mkJ (j_tab J) (j_syms J) JIdle
      | _ => J
      end
  | gdxAddAlias _ _ => if r_code r =? 1 then mkJ (j_tab J) (j_syms J ++ [None]) (j_phase J) else J
  | gdxSetSpecialValues vals =>
      if r_code r =? 1 then mkJ (firstn 5 vals ++ skipn 5 (j_tab J)) (j_syms J) (j_phase J) else J
  | gdxResetSpecialValues => mkJ default_tab (j_syms J) (j_phase J)
  | _ => J
  end.
Proof. intros c r J N. unfold jstep. destruct (j_phase J); try reflexivity. contradiction. Qed.

Lemma jph_env : forall p G st st', jph p G st -> g_mode st' = g_mode st -> g_wrk st' = g_wrk st -> jph p G st'.
Proof. intros p G st st' P M W. unfold jph in *. destruct p; rewrite ?M, ?W; exact P. Qed.
Lemma jph_R : forall p R R' c st, jph p (mkG R c) st -> jph p (mkG R' c) st.
Proof. intros p R R' c st P. exact P. Qed.

Lemma Forall2_znth_r : forall {A B} (P : A -> B -> Prop) l m i b, Forall2 P l m -> znth m i = Some b -> exists a, znth l i = Some a /\ P a b.
Proof.
  intros A B P l m i b F. unfold znth. destruct (i <? 0); [discriminate|]. generalize (Z.to_nat i) as n.
  induction F as [| x y l m H F IH]; intros [|n]; cbn; intros Y; try discriminate.
  - injection Y as <-. eauto.
  - eauto.
Qed.

(** ** Every call keeps the invariant *)

Lemma good_calm : forall h base0 t J G st st', jrel J G st -> winv h (base0 ++ t) G st' -> calm st st' -> jinv h base0 J st'.
Proof. intros h base0 t J G st st' R W C. left. exists t, G. split; [exact W|]. eapply jrel_calm; eassumption. Qed.

Lemma raw_mode : forall h base G n o st, winv h base G st -> gC G = GRaw n o -> In (g_mode st) [fw_dom_raw; fw_raw_data].
Proof. intros h base G n o st [_ P] E. unfold phase in P. rewrite E in P. destruct P as [[M _] _]. exact M. Qed.

Lemma jrel_buf : forall J R c c' st st', jrel J (mkG R c) st -> buf_same st st' ->
  (c = GIdle /\ c' = GIdle \/ exists n i i', c = GBuf n i /\ c' = GBuf n i') -> jrel J (mkG R c') st'.
Proof.
  intros J R c c' st st' [T S P] (B1 & B2 & B3 & B4 & B5 & B6) K. constructor; [congruence|exact S|].
  unfold jph in *. cbn [gC] in *. destruct (j_phase J) as [| |n dim dsize mms recs ok|n|].
  - destruct P as [P1 P2]. destruct K as [[K1 K2]|(n & i & i' & K1 & K2)]; [|congruence]. split; [exact K2|]. rewrite P2 in B6. inversion B6. congruence.
  - destruct P as [P1 P2]. destruct K as [[K1 K2]|(n & i & i' & K1 & K2)]; [|congruence]. split; [exact K2|]. rewrite (mode_step_reg _ _ B6 P2). exact P2.
  - destruct P as [P1 _]. destruct K as [[K1 K2]|(m & i & i' & K1 & K2)]; congruence.
  - destruct P as [i0 P]. destruct K as [[K1 K2]|(m & i & i' & K1 & K2)]; [congruence|]. exists i'. congruence.
  - exact P.
Qed.

Lemma jrun_raw_none : forall ok b (recs : list srec) r, (if ok && b then Some (recs ++ [r]) else None) =
  match (if ok then Some recs else None) with Some recs => if b then Some (recs ++ [r]) else None | None => None end.
Proof. intros [] [] recs r; reflexivity. Qed.

Lemma write_map_raw : forall keys vals st r st', In (g_mode st) [fw_dom_raw; fw_raw_data] -> write_map keys vals st = Done (r, st') -> err_only st st'.
Proof.
  intros keys vals st r st' M H. unfold write_map, enter in H.
  replace (mode_in (g_mode st) [fw_dom_map]) with false in H by (destruct M as [<-|[<-|[]]]; reflexivity).
  unfold checked in H. replace (mode_in (g_mode st) [fw_map_data]) with false in H by (destruct M as [<-|[<-|[]]]; reflexivity).
  injection H as <- <-. apply err_only_set_error.
Qed.
Lemma write_str_raw : forall keys vals st r st', In (g_mode st) [fw_dom_raw; fw_raw_data] -> write_str keys vals st = Done (r, st') -> err_only st st'.
Proof.
  intros keys vals st r st' M H. unfold write_str, enter in H.
  replace (mode_in (g_mode st) [fw_dom_str]) with false in H by (destruct M as [<-|[<-|[]]]; reflexivity).
  unfold checked in H. replace (mode_in (g_mode st) [fw_str_data]) with false in H by (destruct M as [<-|[<-|[]]]; reflexivity).
  injection H as <- <-. apply err_only_set_error.
Qed.

Lemma buf_started_good : forall h base0 J G t m dim typ st r st', jrel J G st -> buf_started z h (base0 ++ t) G m dim typ st r st' ->
  jinv h base0 (j_start r (JBuf (zlen (j_syms J) + 1)) J) st'.
Proof.
  intros h base0 J G t m dim typ st r st' R (-> & C & M & EV & A & M' & W & _).
  eapply (start_accepted _ _ _ _ _ _ _ _ R C M EV); [exact W|]. exists []. cbn [gC]. rewrite (noted_zlen _ _ (jr_syms _ _ _ R)). reflexivity.
Qed.

Lemma raw_started_good : forall h base0 J G t mms dim typ st r st', jrel J G st -> raw_started z h (base0 ++ t) G mms typ st r st' ->
  length mms = Z.to_nat dim -> jinv h base0 (j_start r (j_raw dim typ mms J) J) st'.
Proof.
  intros h base0 J G t mms dim typ st r st' R (-> & C & M & EV & A & W & D1 & D2 & D3 & _) L.
  eapply (start_accepted _ _ _ _ _ _ _ _ R C M EV); [exact W|]. unfold j_raw, jph. cbn [gC].
  rewrite (noted_zlen _ _ (jr_syms _ _ _ R)). split; [reflexivity|]. split; [congruence|]. split; [|exact D3].
  unfold size_of. rewrite D2. reflexivity.
Qed.

Lemma done_good : forall h base0 J G t n o o' st r st', jrel J G st -> done_ok z G n o h (base0 ++ t) st r st' -> noted o' o ->
  jinv h base0 (mkJ (j_tab J) (zset (n - 1) o' (j_syms J)) JIdle) st'.
Proof.
  intros h base0 J G t n o o' st r st' R (-> & (t' & W) & M & A & EV) N. left. rewrite <- app_assoc in W.
  exists (t ++ t'), (mkG (zset (n - 1) o (gR G)) GIdle). split; [exact W|]. destruct R as [T S P]. constructor; cbn [j_tab j_syms j_phase gR gC].
  - congruence.
  - apply noted_zset; assumption.
  - split; [reflexivity|exact M].
Qed.

Lemma reg_good : forall h base0 J G t m st modes st' r, winv h (base0 ++ t) G st -> jrel J G st -> In m reg_modes ->
  modes = [fw_init] \/ modes = [fr_init; fw_init] ->
  checked modes st (okay (set_g_mode m (set_g_aft (after_reg st) st))) = Done (r, st') ->
  jinv h base0 (match j_phase J with JIdle => mkJ (j_tab J) (j_syms J) JReg | _ => J end) st'.
Proof.
  intros h base0 J G t m st modes st' r W R I MD H.
  destruct (register_start_step _ _ _ _ _ _ _ _ _ W I MD H) as [(-> & W' & C & M)|(-> & M & C & W' & M' & A & EV)].
  - assert (PH : j_phase J <> JIdle). { intros Q. pose proof (jr_phase _ _ _ R) as P. rewrite Q in P. destruct P. contradiction. }
    destruct (j_phase J) eqn:Q; try contradiction; eapply good_calm; eassumption.
  - assert (PH : j_phase J = JIdle).
    { destruct (jrel_idle _ _ _ R C) as [Q|Q]; [exact Q|]. pose proof (jr_phase _ _ _ R) as P. rewrite Q in P. destruct P as [_ P]. rewrite M in P. cbn in P. intuition discriminate. }
    rewrite PH. left. exists t, G. split; [exact W'|]. destruct R as [T S P]. constructor; cbn [j_tab j_syms j_phase]; [congruence|exact S|].
    split; [exact C|]. rewrite M'. exact I.
Qed.

Lemma jinv_step : forall h base0 J c st r st', jinv h base0 J st -> keeps_writing c = true -> call_ok c ->
  exec z c st = Done (r, st') -> jinv h base0 (jstep c r J) st'.
Proof.
  intros h base0 J c st r st' [(t & G & W & R)|[L D]] K O H.
  2:{ right. replace (jstep c r J) with J by (unfold jstep; rewrite L; reflexivity). split; [exact L|]. eapply dead_step; eassumption. }
  pose proof (jr_not_lost _ _ _ R) as NL. rewrite (jstep_phase _ _ _ NL).
  assert (CALM : winv h (base0 ++ t) G st' /\ calm st st' -> jinv h base0 J st').
  { intros [W' C]. eapply good_calm; eassumption. }
  destruct (looks c) eqn:LK.
  { assert (E : err_only st st'). { eapply looks_err_only; [exact LK|eapply winv_write_mode; exact W|exact H]. }
    assert (jinv h base0 J st'). { apply CALM. split; [|apply err_only_calm; exact E]. eapply err_only_winv; eassumption. }
    destruct c; try discriminate LK; assumption. }
  destruct c; try discriminate K; try discriminate LK; cbn [exec] in H; cbn [call_ok] in O.
  - (* raw start *)
    destruct (raw_start_step _ _ _ _ _ _ _ _ _ _ _ _ W O H) as [RS|[RS _]].
    + eapply start_refused; eassumption.
    + eapply raw_started_good; [exact R|exact RS|apply repeat_length].
  - destruct O as (O & LO & HI).
    destruct (raw_start_bounds_step _ _ _ _ _ _ _ _ _ _ _ _ _ _ W O H) as [RS|(RS & D & L1 & L2)].
    + eapply start_refused; eassumption.
    + eapply raw_started_good; [exact R|exact RS|]. rewrite combine_length, !firstn_length. lia.
  - (* raw record *)
    destruct O as [O1 O2]. destruct (write_raw_step _ _ _ _ _ _ _ _ _ W O1 O2 H) as [(-> & W' & C)|(-> & n & o & GC & W' & EV & E1 & E2 & E3)].
    + assert (X : jinv h base0 J st') by (apply CALM; split; assumption). change (r_code (ret 0) =? 1) with false. cbv iota.
      destruct (j_phase J); exact X.
    + pose proof (jr_phase _ _ _ R) as P. destruct (j_phase J) as [| |n' dim dsize mms recs ok|n'|] eqn:PH.
      * destruct P. congruence.
      * destruct P. congruence.
      * destruct P as (P1 & P2 & P3 & P4). change (r_code (ret 1) =? 1) with true. cbv iota.
        left. eexists t, _. split; [exact W'|]. destruct R as [T S _]. constructor; cbn [j_tab j_syms j_phase gR]; [congruence|exact S|].
        cbn [jph gC]. rewrite E1, E2, E3. split; [|auto]. rewrite P1 in GC. injection GC as <- <-. f_equal.
        rewrite P2, P3, P4, <- T. rewrite jrun_raw_none. reflexivity.
      * destruct P as [i P]. congruence.
      * contradiction.
  - destruct (map_start_step _ _ _ _ _ _ _ _ _ _ _ _ W O H) as [RS|RS].
    + eapply start_refused; eassumption.
    + eapply buf_started_good; eassumption.
  - (* mapped record *)
    destruct O as [O1 O2]. destruct G as [R0 c0]. destruct c0 as [|n o|n items].
    + destruct (write_map_step _ _ _ _ _ _ _ _ _ W O2 H) as [(-> & W' & B & _)|(-> & n & items & ks & GC & _)]; [|cbn in GC; congruence].
      left. eexists t, _. split; [exact W'|]. eapply jrel_buf; [exact R|exact B|auto].
    + assert (E : err_only st st') by (eapply write_map_raw; [eapply raw_mode; [exact W|reflexivity]|exact H]).
      apply CALM. split; [|apply err_only_calm; exact E]. eapply err_only_winv; eassumption.
    + destruct (write_map_step _ _ _ _ _ _ _ _ _ W O2 H) as [(-> & W' & B & _)|(-> & n' & items' & ks & GC & _ & _ & _ & _ & W' & B & _)].
      * left. eexists t, _. split; [exact W'|]. eapply jrel_buf; [exact R|exact B|eauto 10].
      * cbn in GC. injection GC as <- <-. left. eexists t, _. split; [exact W'|]. eapply jrel_buf; [exact R|exact B|eauto 10].
  - destruct (str_start_step _ _ _ _ _ _ _ _ _ _ _ _ W O H) as [RS|[RS _]].
    + eapply start_refused; eassumption.
    + eapply buf_started_good; eassumption.
  - (* string record *)
    destruct O as [O1 O2]. destruct G as [R0 c0]. destruct c0 as [|n o|n items].
    + destruct (write_str_step _ _ _ _ _ _ _ _ _ W O1 O2 H) as [(-> & W' & B & _)|(-> & n & items & GC & _)]; [|cbn in GC; congruence].
      left. eexists t, _. split; [exact W'|]. eapply jrel_buf; [exact R|exact B|auto].
    + assert (E : err_only st st') by (eapply write_str_raw; [eapply raw_mode; [exact W|reflexivity]|exact H]).
      apply CALM. split; [|apply err_only_calm; exact E]. eapply err_only_winv; eassumption.
    + destruct (write_str_step _ _ _ _ _ _ _ _ _ W O1 O2 H) as [(-> & W' & B & _)|(-> & n' & items' & GC & _ & _ & W' & B & _)].
      * left. eexists t, _. split; [exact W'|]. eapply jrel_buf; [exact R|exact B|eauto 10].
      * cbn in GC. injection GC as <- <-. left. eexists t, _. split; [exact W'|]. eapply jrel_buf; [exact R|exact B|eauto 10].
  - (* done *)
    pose proof (jr_phase _ _ _ R) as P. destruct (j_phase J) as [| |n dim dsize mms recs ok|n|] eqn:PH.
    + apply CALM. destruct P as [_ P]. unfold data_write_done, checked in H. rewrite P in H. cbn in H. injection H as <- <-.
      split; [apply winv_set_error; exact W|apply calm_set_error].
    + apply CALM. destruct P as [_ P]. unfold data_write_done, checked in H.
      replace (mode_in (g_mode st) _) with false in H by (destruct P as [<-|[<-|[<-|[]]]]; reflexivity). injection H as <- <-.
      split; [apply winv_set_error; exact W|apply calm_set_error].
    + destruct P as [P _]. destruct (write_done_raw_step _ _ _ _ _ _ _ _ _ W P H) as [D _]. destruct ok.
      * eapply done_good; [exact R|exact D|right; reflexivity].
      * replace (j_syms J) with (zset (n - 1) None (j_syms J)).
        { eapply done_good; [exact R|exact D|right; reflexivity]. }
        apply zset_same. destruct W as [_ W]. unfold phase in W. rewrite P in W. destruct W as [_ W].
        destruct (Forall2_znth_r _ _ _ _ _ (jr_syms _ _ _ R) W) as (x & X1 & [->|X2]); [exact X1|congruence].
    + destruct P as [i P]. destruct (write_done_buf_step _ _ _ _ _ _ _ _ _ W P H) as (sy & sy' & o & D & _).
      replace (j_syms J) with (zset (n - 1) None (j_syms J)).
      { eapply done_good; [exact R|exact D|left; reflexivity]. }
      apply zset_same. destruct W as [_ W]. unfold phase in W. rewrite P in W. destruct W as [_ W].
      destruct (Forall2_znth_r _ _ _ _ _ (jr_syms _ _ _ R) W) as (x & X1 & [->|X2]); [exact X1|congruence].
    + contradiction.
  - apply CALM. eapply set_domain_step; eassumption.
  - apply CALM. eapply set_domain_x_step; eassumption.
  - destruct (add_alias_step _ _ _ _ _ _ _ _ _ W H) as [C [[-> W']|[-> W']]].
    + apply CALM. split; assumption.
    + change (r_code (ret 1) =? 1) with true. cbv iota. left. exists t, (mkG (gR G ++ [None]) (gC G)). split; [exact W'|].
      destruct (jrel_calm _ _ _ _ R C) as [T S P]. constructor; cbn [j_tab j_syms j_phase gR]; [exact T|apply noted_None; exact S|].
      destruct G as [R0 c0]. exact P.
  - apply CALM. destruct O. eapply add_comment_step; eassumption.
  - apply CALM. eapply add_set_text_step; eassumption.
  - apply CALM. eapply set_text_node_step; eassumption.
  - (* register raw start *)
    assert (HH : checked [fw_init] st (okay (set_g_mode f_raw_elem (set_g_aft (after_reg st) st))) = Done (r, st')).
    { unfold register_raw_start, checked in H |- *. destruct (mode_in (g_mode st) [fw_init]) eqn:M; [|exact H].
      rewrite <- H. unfold after_reg. apply mode_in_true in M. destruct M as [<-|[]]. reflexivity. }
    eapply reg_good; [exact W|exact R| |left; reflexivity|exact HH]. cbn. auto.
  - apply CALM. eapply register_raw_step; eassumption.
  - eapply reg_good; [exact W|exact R| |right; reflexivity|exact H]. cbn. auto.
  - apply CALM. eapply register_str_step; eassumption.
  - eapply reg_good; [exact W|exact R| |right; reflexivity|exact H]. cbn. auto.
  - apply CALM. destruct O. eapply register_map_step; eassumption.
  - destruct (register_done_step _ _ _ _ _ _ _ W H) as [(-> & W' & C & M)|(-> & M & C & W' & M' & EV)].
    + assert (X : jinv h base0 J st') by (apply CALM; split; assumption).
      destruct (j_phase J) eqn:PH; try exact X. pose proof (jr_phase _ _ _ R) as P. rewrite PH in P. destruct P as [_ P]. contradiction.
    + assert (PH : j_phase J = JReg).
      { destruct (jrel_idle _ _ _ R C) as [Q|Q]; [|exact Q]. pose proof (jr_phase _ _ _ R) as P. rewrite Q in P. destruct P as [_ P]. rewrite P in M. cbn in M. intuition discriminate. }
      rewrite PH. left. exists t, G. split; [exact W'|]. destruct R as [T S P]. constructor; cbn [j_tab j_syms j_phase]; [congruence|exact S|].
      split; [exact C|exact M'].
  - apply CALM. destruct O. eapply rename_step; eassumption.
  - apply CALM. destruct O as (O1 & O2 & O3). exact (acronym_add_step _ _ _ _ _ _ _ _ _ _ W O1 O2 O3 H).
  - apply CALM. destruct O as (O0 & O1 & O2 & O3). exact (acronym_set_info_step _ _ _ _ _ _ _ _ _ _ _ W O1 O2 O3 H).
  - apply CALM. unfold acronym_next_nr in H. injection H as <- <-. destruct (0 <=? nv); [|split; [exact W|apply calm_refl]].
    split; [|repeat split; apply ms_same]. apply winv_env; [exact W|]. apply (co_tab _ _ _ _ _ (proj1 W)).
  - destruct (set_special_step _ _ _ _ _ _ _ _ W H) as [(-> & W' & C)|(-> & W' & T' & M & A & WK)].
    + apply CALM. split; assumption.
    + change (r_code (ret 1) =? 1) with true. cbv iota. left. exists t, G. split; [exact W'|]. destruct R as [T S P].
      constructor; cbn [j_tab j_syms j_phase]; [congruence|exact S|]. eapply jph_env; eassumption.
  - apply CALM. unfold set_read_special, okay in H. destruct (_ <? 5)%nat; [discriminate|]. injection H as <- <-.
    split; [|repeat split; apply ms_same]. apply winv_env; [exact W|]. apply (co_tab _ _ _ _ _ (proj1 W)).
  - injection H as <- <-. left. exists t, G. split; [apply winv_env; [exact W|reflexivity]|]. destruct R as [T S P]. constructor; cbn [j_tab j_syms j_phase]; [reflexivity|exact S|].
    eapply jph_env; [exact P|reflexivity..].
  - apply CALM. injection H as <- <-. split; [|repeat split; apply ms_same]. apply winv_env; [exact W|]. apply (co_tab _ _ _ _ _ (proj1 W)).
  - apply CALM. injection H as <- <-. split; [|repeat split; apply ms_same]. apply winv_env; [exact W|]. apply (co_tab _ _ _ _ _ (proj1 W)).
  - apply CALM. injection H as <- <-. split; [|repeat split; apply ms_same]. apply winv_env; [exact W|]. apply (co_tab _ _ _ _ _ (proj1 W)).
Qed.

(** ** Sequences *)

Lemma jinv_run : forall h base0 cs J st rs st', jinv h base0 J st -> Forall (fun c => keeps_writing c = true /\ call_ok c) cs ->
  run z cs st = Done (rs, st') -> jinv h base0 (jrun cs rs J) st'.
Proof.
  induction cs as [| c cs IH]; intros J st rs st' I F H; cbn [run] in H.
  - injection H as <- <-. exact I.
  - inversion F as [|? ? [K O] F']; subst. obind_inv H. destruct x as [r st1]. obind_inv H. destruct x as [rs1 st2]. injection H as <- <-.
    cbn [jrun]. eapply IH; [|exact F'|eassumption]. eapply jinv_step; eassumption.
Qed.

End Z.
