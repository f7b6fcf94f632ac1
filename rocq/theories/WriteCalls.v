(** * WriteCalls: every call made while a file is being written *)

From Coq Require Import String Sorted Permutation.
From Verif Require Import Base Prim Values Records LinkedData StrHash IntMap Strings AStream BufStream State StateTac
  FileImage ApiCore ApiFile ApiWrite ApiRead Api FileFacts BlockFacts StreamFacts OpenFacts DicInv WriteInv WriteSteps Journal.
Open Scope Z_scope.
Open Scope list_scope.

Section Z.
Context (z : zlib).
Notation winv := (winv z).

(** ** Modes *)

Definition write_modes : list gmode :=
  [fw_init; f_raw_elem; f_map_elem; f_str_elem; fw_dom_raw; fw_dom_map; fw_dom_str; fw_raw_data; fw_map_data; fw_str_data].

Lemma winv_write_mode : forall h base G st, winv h base G st -> In (g_mode st) write_modes.
Proof.
  intros h base G st [_ P]. unfold phase in P. destruct (gC G).
  - destruct P as [[M|[M _]] _]; [rewrite M; cbn; auto|]. cbn in M |- *. intuition.
  - destruct P as [[M _] _]. cbn in M |- *. intuition.
  - destruct P as [[M _ _ _ _ _ _] _]. cbn in M |- *. intuition.
Qed.

Lemma dead_write_mode : forall st, dead st -> In (g_mode st) write_modes.
Proof. intros st [M _]. unfold data_modes in M. cbn in M |- *. intuition. Qed.

Definition disjoint_modes (l : list gmode) : bool := forallb (fun m => negb (mode_in m l)) write_modes.

Lemma mode_in_disjoint : forall l m, disjoint_modes l = true -> In m write_modes -> mode_in m l = false.
Proof.
  intros l m D M. unfold disjoint_modes in D. rewrite forallb_forall in D. specialize (D m M).
  destruct (mode_in m l); [discriminate|reflexivity].
Qed.

(** ** Calls that only look, or are refused *)

Definition looks (c : call) : bool :=
  match c with
  | gdxDataReadRaw | gdxDataReadStr | gdxDataReadMap _ | gdxDataReadSlice _ | gdxDataSliceUELS _
  | gdxSymbIndxMaxLength _ | gdxSymbMaxLength | gdxUELMaxLength | gdxFindSymbol _ | gdxSymbolInfo _ | gdxSymbolDim _
  | gdxSymbolInfoX _ | gdxSymbolGetDomain _ | gdxSymbolGetDomainX _ | gdxSetHasText _ | gdxSymbolGetComment _ _
  | gdxGetElemText _ | gdxSystemInfo | gdxUMUelGet _ | gdxUMUelInfo | gdxGetUEL _ | gdxUMFindUEL _ | gdxCurrentDim
  | gdxFileVersion | gdxFileInfo | gdxGetLastError _ | gdxErrorCount | gdxStoreDomainSets | gdxAllowBogusDomains | gdxMapAcronymsToNaN | gdxDataErrorCount | gdxDataErrorRecord _
  | gdxDataErrorRecordX _ | gdxGetSpecialValues | gdxMapValue _ | gdxAcronymCount | gdxAcronymGetInfo _
  | gdxAcronymGetMapping _ | gdxAcronymIndex _ | gdxAcronymName _ | gdxAcronymValue _ | gdxFilterExists _
  | gdxFilterRegisterStart _ | gdxFilterRegister _ | gdxFilterRegisterDone => true
  | _ => false
  end.

Lemma err_only_ret : forall (r r' : resp) st st', Done (r, st) = Done (r', st') -> err_only st st'.
Proof. intros r r' st st' H. injection H as <- <-. apply err_only_refl. Qed.
Lemma err_only_fail : forall e st (r' : resp) st', fail_with e st = Done (r', st') -> err_only st st'.
Proof. intros e st r' st' H. unfold fail_with in H. injection H as <- <-. apply err_only_set_error. Qed.
Lemma err_only_refused : forall l st k (r' : resp) st', checked l st k = Done (r', st') ->
  disjoint_modes l = true -> In (g_mode st) write_modes -> r' = ret 0 /\ st' = set_error ERR_BADMODE st.
Proof.
  intros l st k r' st' H D M. unfold checked in H. rewrite (mode_in_disjoint l _ D M) in H. unfold refuse in H.
  injection H as <- <-. split; reflexivity.
Qed.

Ltac look H :=
  repeat (first
    [ discriminate H
    | exact (err_only_ret _ _ _ _ H)
    | exact (err_only_fail _ _ _ _ H)
    | (lazymatch type of H with obind _ _ = Done _ => obind_inv H end)
    | (match type of H with
       | (if ?b then _ else _) = Done _ => destruct b
       | match ?b with _ => _ end = Done _ => destruct b
       end) ]).

Lemma looks_err_only : forall c st r st', looks c = true -> In (g_mode st) write_modes ->
  exec z c st = Done (r, st') -> err_only st st'.
Proof.
  intros c st r st' L M H.
  destruct c; try discriminate L; cbn [exec] in H;
  try (match type of H with ?f = _ => unfold read_raw, read_str, read_map, read_slice, data_slice_uels, filter_exists, filter_register_start, filter_register, filter_register_done in H end;
       destruct (err_only_refused _ _ _ _ _ H eq_refl M) as [_ ->]; apply err_only_set_error);
  unfold symb_max_length, uel_max_length, find_symbol, symbol_info, symbol_dim, symbol_info_x, symbol_get_domain, symbol_get_domain_x,
    set_has_text, symbol_get_comment, get_elem_text, system_info, um_uel_get, um_uel_info, get_uel, um_find_uel, current_dim, file_version,
    file_info, error_count, data_error_count, get_special, map_value, acronym_count, acronym_get_info, acronym_get_mapping,
    acronym_index, acronym_name, acronym_value in H; cbv zeta in H; try solve [look H].
  - unfold symb_indx_max_length in H. rewrite (mode_in_disjoint [fr_init] _ eq_refl M) in H. cbn [negb] in H.
    injection H as <- <-. apply err_only_set_error.
  - unfold get_last_error in H. destruct (f_strm (g_fil st)); [destruct (io =? 0)|]; injection H as <- <-;
      try apply err_only_refl; exists (set_r_last 0); (split; [reflexivity|]); auto.
  - unfold data_error_record in H. obind_inv H. destruct x as [r1 st1]. injection H as <- <-.
    unfold data_error_record_x, checked, refuse in E.
    destruct (mode_in (g_mode st) _); [|injection E as <- <-; apply err_only_set_error].
    look E.
  - unfold data_error_record_x, checked, refuse in H.
    destruct (mode_in (g_mode st) _); [|injection H as <- <-; apply err_only_set_error].
    look H.
Qed.

(** ** Starting a symbol *)

(** What a successful PrepareSymbolWrite does, and what a refused one leaves alone. *)
Record started (name text : str) (dim typ uinfo : Z) (st st' : gst) : Prop := mkStarted {
  sd_was : g_mode st = fw_init;
  sd_ident : good_ident name = true /\ sym_find (g_dic st) name < 1 /\ acro_named name (d_acros (g_dic st)) < 0;
  sd_dim : 0 <= dim <= 20;
  sd_typ : 0 <= typ <= dt_equ;
  sd_env : g_env st' = g_env st;
  sd_aft : g_aft st' = g_aft st;
  sd_err : g_err st' = set_r_list None (g_err st);
  sd_wdim : w_dim (g_wrk st') = Z.to_nat dim;
  sd_size : data_size typ = Some (w_dsize (g_wrk st'));
  sd_wrb : w_wrb (g_wrk st') = repeat None (Z.to_nat dim);
  sd_dic : exists bits, g_dic st' = set_d_names (d_names (g_dic st) ++
             [(name, new_sym dim typ uinfo text (f_compout (g_fil st) && (0 <? dim)) bits)]) (g_dic st)
}.

Lemma prepare_eqs : forall name text dim typ uinfo st ok st',
  prepare_symbol_write z name text dim typ uinfo st = Done (ok, st') ->
  g_mode st' = g_mode st /\ g_aft st' = g_aft st /\ g_env st' = g_env st /\
  (ok = false -> g_dic st' = g_dic st) /\
  (ok = true -> started name text dim typ uinfo st st').
Proof.
  intros name text dim typ uinfo st ok st' H. unfold prepare_symbol_write in H.
  set (st0 := upd_wrk (fun w => set_w_sort None (set_w_cur CNull w)) (upd_err (set_r_list None) st)) in *.
  assert (E0 : forall n, let s := set_error n st0 in g_mode s = g_mode st /\ g_aft s = g_aft st /\ g_env s = g_env st /\
     (false = false -> g_dic s = g_dic st) /\ (false = true -> started name text dim typ uinfo st s)).
  { intros n. destruct (set_error_eq n st0) as (f & -> & _). repeat split; discriminate. }
  destruct (mode_in (g_mode st0) [fw_init]) eqn:M; cbn [negb] in H; [|injection H as <- <-; apply E0].
  destruct (good_new_symbol name st0) as [okn st1] eqn:GN.
  destruct (good_new_symbol_cases _ _ _ _ GN) as [(-> & -> & GI)|(-> & e & ->)]; cbn [negb] in H; [|injection H as <- <-; apply E0].
  destruct ((0 <=? dim) && (dim <=? 20)) eqn:D; cbn [negb] in H; [|injection H as <- <-; apply E0].
  destruct ((0 <=? typ) && (typ <=? dt_equ)) eqn:T; cbn [negb] in H; [|injection H as <- <-; apply E0].
  cbv zeta in H. obind_inv H. injection H as <- <-. apply s_setcomp_inv in E. destruct E as (s & E1 & ->).
  split; [reflexivity|]. split; [reflexivity|]. split; [reflexivity|]. split; [discriminate|]. intros _.
  constructor; try reflexivity.
  - apply mode_in_true in M. destruct M as [M|[]]. symmetry. exact M.
  - exact GI.
  - lia.
  - lia.
  - assert (DS : exists k, data_size typ = Some k).
    { unfold data_size. unfold dt_equ in T. repeat (match goal with |- context [typ =? ?q] => destruct (Z.eqb_spec typ q); [eauto|] end). lia. }
    destruct DS as [k DS]. cbn. rewrite DS. reflexivity.
  - eexists. reflexivity.
Qed.

(** Nothing the records being written depend on has changed. *)
Definition calm (st st' : gst) : Prop :=
  mode_step (g_mode st) (g_mode st') /\ g_aft st' = g_aft st /\ wrk_same (g_wrk st) (g_wrk st') /\ e_tab (g_env st') = e_tab (g_env st).

Lemma calm_refl : forall st, calm st st.
Proof. intros st. repeat split. apply ms_same. Qed.
Lemma mode_step_trans : forall a b c, mode_step a b -> mode_step b c -> mode_step a c.
Proof. intros a b c [] H; inversion H; subst; assumption || constructor. Qed.
Lemma calm_trans : forall a b c, calm a b -> calm b c -> calm a c.
Proof.
  intros a b c (A1 & A2 & (A3 & A4 & A5 & A6 & A7 & A8 & A9 & A10) & A11) (B1 & B2 & (B3 & B4 & B5 & B6 & B7 & B8 & B9 & B10) & B11).
  split; [eapply mode_step_trans; eassumption|]. repeat split; congruence.
Qed.
Lemma err_only_calm : forall a b, err_only a b -> calm a b.
Proof. intros a b H. destruct (err_only_eq _ _ H) as (A & B & C & _ & _ & D & _). unfold calm. rewrite A, B, C, D. repeat split. apply ms_same. Qed.

(** The three outcomes of a start call. *)
Definition refused_start (h : fhead) (base : list Z) (G : ghost) (st : gst) (r : resp) (st' : gst) : Prop :=
  r = ret 0 /\ g_env st' = g_env st /\ g_dic st' = g_dic st /\ g_mode st' = g_mode st /\ g_aft st' = g_aft st /\
  ((gC G = GIdle /\ winv h base G st') \/ (gC G <> GIdle /\ dead st')).

Lemma prepare_step : forall h base G name text dim typ uinfo st ok st',
  winv h base G st -> start_ok name text dim typ uinfo ->
  prepare_symbol_write z name text dim typ uinfo st = Done (ok, st') ->
  (ok = false /\ refused_start h base G st (ret 0) st') \/
  (ok = true /\ gC G = GIdle /\ prepared z h base (gR G) (zlen (gR G) + 1) st' /\ started name text dim typ uinfo st st').
Proof.
  intros h base G name text dim typ uinfo st ok st' W A H.
  destruct (prepare_eqs _ _ _ _ _ _ _ _ H) as (E1 & E2 & E3 & E4 & E5).
  destruct (prepare_cases _ _ _ _ _ _ _ _ _ _ _ _ W A H) as [(-> & C & W')|[(-> & C & D)|(-> & C & P)]].
  - left. split; [reflexivity|]. unfold refused_start. auto 10.
  - left. split; [reflexivity|]. unfold refused_start. auto 10.
  - right. auto.
Qed.

(** The state after a start of raw writing with bounds [mms]. *)
Lemma raw_start_tail : forall h base R n mms st st' (st2 : gst),
  prepared z h base R n st -> length mms = w_dim (g_wrk st) ->
  init_do_write z (-1) (upd_wrk (set_w_mms mms) st) = Done st2 -> st' = set_g_mode fw_dom_raw st2 ->
  winv h base (mkG (R ++ [None]) (GRaw n (if bounds_okb mms then Some [] else None))) st' /\
  g_env st' = g_env st /\ g_err st' = g_err st /\ g_mode st' = fw_dom_raw /\
  g_dic st' = upd_sym n (set_sy_pos (zlen base)) (g_dic st) /\
  w_mms (g_wrk st') = mms /\ w_dim (g_wrk st') = w_dim (g_wrk st) /\ w_dsize (g_wrk st') = w_dsize (g_wrk st) /\
  w_last (g_wrk st') = repeat INDEX_INITIAL (w_dim (g_wrk st)) /\ w_cnt (g_wrk st') = 0 /\ w_wrb (g_wrk st') = w_wrb (g_wrk st).
Proof.
  intros h base R n mms st st' st2 P LM H ->. destruct P as [PC [PN1 PN2] PCU (sy & s & GS & WD & DS & ST & OB & AC & BI) PM PL].
  assert (RN : znth (R ++ [None]) (n - 1) = Some None).
  { replace (n - 1) with (zlen R) by lia. apply znth_snoc. }
  assert (C1 : core z h base (R ++ [None]) (upd_wrk (set_w_mms mms) st)).
  { eapply core_frame; [exact PC|reflexivity..|exact (co_err _ _ _ _ _ PC)]. }
  destruct (init_do_write_spec _ _ _ _ n sy s _ _ _ C1 PCU GS WD DS ltac:(cbn; congruence) ST OB AC BI RN H)
    as (C2 & WC & E1 & E2 & E3 & E4 & E5).
  split; [|rewrite ?E2, ?E3, ?E4; cbn; rewrite ?E5; repeat split; assumption].
  split.
  - cbn [gR]. eapply core_frame; [exact C2|reflexivity..|exact (co_err _ _ _ _ _ C2)].
  - unfold phase. cbn [gR gC]. split; [|exact RN]. split; [cbn; auto|].
    exists (set_sy_pos (zlen base) sy), []. split.
    + destruct WC. constructor; assumption.
    + intros r Er. destruct (bounds_okb mms) eqn:FB; [|discriminate]. injection Er as <-. split; [reflexivity|].
      split; [|constructor]. cbn. rewrite E5. apply bounds_okb_spec. exact FB.
Qed.

Lemma map_const_repeat : forall {A} (a : A) n, bounds_okb (repeat (0, INT_MAX) n) = true.
Proof. intros A a n. induction n; [reflexivity|]. exact IHn. Qed.

Definition raw_started (h : fhead) (base : list Z) (G : ghost) (mms : list (Z * Z)) (typ : Z) (st : gst) (r : resp) (st' : gst) : Prop :=
  r = ret 1 /\ gC G = GIdle /\ g_mode st = fw_init /\ g_env st' = g_env st /\ g_aft st' = g_aft st /\
  winv h base (mkG (gR G ++ [None]) (GRaw (zlen (gR G) + 1) (if bounds_okb mms then Some [] else None))) st' /\
  w_dim (g_wrk st') = length mms /\ data_size typ = Some (w_dsize (g_wrk st')) /\ w_mms (g_wrk st') = mms /\
  w_last (g_wrk st') = repeat INDEX_INITIAL (length mms) /\ w_cnt (g_wrk st') = 0 /\ w_wrb (g_wrk st') = repeat None (length mms).

Lemma raw_start_step : forall h base G name text dim typ uinfo st r st',
  winv h base G st -> start_ok name text dim typ uinfo ->
  write_raw_start z name text dim typ uinfo st = Done (r, st') ->
  refused_start h base G st r st' \/
  (raw_started h base G (repeat (0, INT_MAX) (Z.to_nat dim)) typ st r st' /\ 0 <= dim <= 20).
Proof.
  intros h base G name text dim typ uinfo st r st' W A H. unfold write_raw_start in H. obind_inv H. destruct x as [ok st1].
  destruct (prepare_step _ _ _ _ _ _ _ _ _ _ _ W A E) as [[-> RS]|(-> & C & P & SD)]; cbn [negb] in H.
  - injection H as <- <-. left. exact RS.
  - right. destruct SD as [D1 D2 D3 D4 D5 D5' D6 D7 D8 D9 D10]. split; [|exact D3]. obind_inv H. injection H as <- <-.
    change (upd_wrk (fun w => set_w_mms (repeat (0, INT_MAX) (w_dim w)) w) st1) with
      (upd_wrk (set_w_mms (repeat (0, INT_MAX) (w_dim (g_wrk st1)))) st1) in E0.
    rewrite D7 in E0.
    assert (AF : g_aft x = g_aft st1).
    { unfold init_do_write in E0. cbv zeta in E0. obind_inv E0. apply s_setpos_inv in E1. destruct E1 as (? & _ & _ & ->).
      obind_inv E0. destruct x0. apply s_write_inv in E0. destruct E0 as (? & ? & _ & _ & ->). reflexivity. }
    destruct (raw_start_tail _ _ _ _ (repeat (0, INT_MAX) (Z.to_nat dim)) _ _ _ P (eq_trans (repeat_length _ _) (eq_sym D7)) E0 eq_refl)
      as (B1 & B2 & B3 & B4 & B5 & B6 & B7 & B8 & B9 & B10 & B11).
    unfold raw_started. rewrite repeat_length. split; [reflexivity|]. split; [exact C|]. split; [exact D1|]. split; [congruence|].
    split; [change (g_aft x = g_aft st); congruence|]. split; [exact B1|]. split; [congruence|]. split; [congruence|]. split; [exact B6|]. split; [congruence|]. split; [exact B10|]. congruence.
Qed.

Lemma raw_start_bounds_step : forall h base G name text dim typ uinfo lo hi st r st',
  winv h base G st -> start_ok name text dim typ uinfo ->
  write_raw_start_bounds z name text dim typ uinfo lo hi st = Done (r, st') ->
  refused_start h base G st r st' \/
  (raw_started h base G (combine (firstn (Z.to_nat dim) lo) (firstn (Z.to_nat dim) hi)) typ st r st' /\ 0 <= dim <= 20 /\
   (Z.to_nat dim <= length lo)%nat /\ (Z.to_nat dim <= length hi)%nat).
Proof.
  intros h base G name text dim typ uinfo lo hi st r st' W A H. unfold write_raw_start_bounds in H. obind_inv H. destruct x as [ok st1].
  destruct (prepare_step _ _ _ _ _ _ _ _ _ _ _ W A E) as [[-> RS]|(-> & C & P & SD)]; cbn [negb] in H.
  - injection H as <- <-. left. exact RS.
  - right. destruct SD as [D1 D2 D3 D4 D5 D5' D6 D7 D8 D9 D10]. cbv zeta in H.
    destruct ((length lo <? w_dim (g_wrk st1))%nat || (length hi <? w_dim (g_wrk st1))%nat) eqn:LL; [discriminate|].
    apply Bool.orb_false_iff in LL. destruct LL as [L1 L2]. apply Nat.ltb_ge in L1, L2. rewrite D7 in *.
    split; [|auto]. obind_inv H. injection H as <- <-.
    assert (AF : g_aft x = g_aft st1).
    { unfold init_do_write in E0. cbv zeta in E0. obind_inv E0. apply s_setpos_inv in E1. destruct E1 as (? & _ & _ & ->).
      obind_inv E0. destruct x0. apply s_write_inv in E0. destruct E0 as (? & ? & _ & _ & ->). reflexivity. }
    set (mms := combine (firstn (Z.to_nat dim) lo) (firstn (Z.to_nat dim) hi)) in *.
    assert (LM : length mms = Z.to_nat dim). { unfold mms. rewrite combine_length, !firstn_length. lia. }
    destruct (raw_start_tail _ _ _ _ mms _ _ _ P (eq_trans LM (eq_sym D7)) E0 eq_refl)
      as (B1 & B2 & B3 & B4 & B5 & B6 & B7 & B8 & B9 & B10 & B11).
    unfold raw_started. rewrite LM. split; [reflexivity|]. split; [exact C|]. split; [exact D1|]. split; [congruence|].
    split; [change (g_aft x = g_aft st); congruence|]. split; [exact B1|]. split; [congruence|]. split; [congruence|]. split; [exact B6|]. split; [congruence|]. split; [exact B10|]. congruence.
Qed.

(** ** Raw records *)

Lemma calm_enter : forall a b st, mode_step a b -> calm st (enter a b st).
Proof.
  intros a b st M. unfold enter. destruct (mode_in (g_mode st) [a]) eqn:E; [|apply calm_refl].
  apply mode_in_true in E. destruct E as [E|[]]. subst a. repeat split. exact M.
Qed.

Lemma enter_env : forall a b st, g_env (enter a b st) = g_env st /\ g_dic (enter a b st) = g_dic st /\ g_wrk (enter a b st) = g_wrk st.
Proof. intros a b st. unfold enter. destruct (mode_in (g_mode st) [a]); repeat split. Qed.

Definition snoc_rec (mms : list (Z * Z)) (r : srec) (o : option (list srec)) : option (list srec) :=
  match o with
  | Some recs => if inside mms (fst r) then Some (recs ++ [r]) else None
  | None => None
  end.

Lemma write_raw_step : forall h base G keys vals st r st',
  winv h base G st -> Forall int_ok keys -> Forall u64_ok vals ->
  write_raw z keys vals st = Done (r, st') ->
  (r = ret 0 /\ winv h base G st' /\ calm st st') \/
  (r = ret 1 /\ exists n o,
     let w := g_wrk st in
     gC G = GRaw n o /\
     winv h base (mkG (gR G) (GRaw n (snoc_rec (w_mms w)
        (firstn (w_dim w) keys, List.map (classify (e_tab (g_env st))) (firstn (w_dsize w) vals)) o))) st' /\
     g_env st' = g_env st /\ w_mms (g_wrk st') = w_mms w /\ w_dim (g_wrk st') = w_dim w /\ w_dsize (g_wrk st') = w_dsize w).
Proof.
  intros h base G keys vals st r st' W K V H. unfold write_raw in H.
  pose proof (winv_enter z h base G st _ _ W ms_raw) as W1. pose proof (calm_enter fw_dom_raw fw_raw_data st ms_raw) as CA.
  destruct (enter_env fw_dom_raw fw_raw_data st) as (EV & _ & EW).
  set (st1 := enter fw_dom_raw fw_raw_data st) in *. clearbody st1.
  unfold checked, refuse in H. destruct (mode_in (g_mode st1) [fw_raw_data]) eqn:M.
  2:{ injection H as <- <-. left. split; [reflexivity|]. split; [apply winv_set_error; assumption|].
      eapply calm_trans; [exact CA|]. apply err_only_calm, err_only_set_error. }
  apply mode_in_true in M. destruct M as [M|[]]. obind_inv H. destruct x as [ok st2]. injection H as <- <-.
  destruct G as [R c]. destruct W1 as [C1 P1]. cbn [gR] in C1. unfold phase in P1. cbn [gR gC] in P1.
  destruct c as [|n o|n items].
  { destruct P1 as [[P1|[P1 _]] _]; rewrite <- M in P1; [discriminate|]. cbn in P1. intuition discriminate. }
  2:{ destruct P1 as [[P1 _ _ _ _ _ _] _]. rewrite <- M in P1. cbn in P1. intuition discriminate. }
  destruct P1 as [(P1 & sy & recs & WC & OK) RN].
  destruct (do_write_full _ _ _ _ _ _ _ _ _ _ _ _ C1 WC RN E) as (C2 & sy' & RA & [(-> & EO & ->)|(-> & EE & WC2)]).
  - left. split; [reflexivity|]. split.
    + eapply err_only_winv; [exact EO|]. split; [exact C1|]. unfold phase. cbn [gR gC]. split; [|exact RN].
      split; [exact P1|]. exists sy, recs. auto.
    + eapply calm_trans; [exact CA|]. apply err_only_calm. exact EO.
  - right. split; [reflexivity|]. exists n, o.
    destruct CA as (A1 & A2 & (A3 & A4 & A5 & A6 & A7 & A8 & A9 & A10) & A11).
    destruct RA as [R1 R2 R3 R4 R5 (last & cc & R6) R7 R8].
    cbv zeta. cbn [gC gR]. split; [reflexivity|]. 
    split; [|rewrite R3, R6; cbn; rewrite A4, A5, A6; auto].
    split; [exact C2|]. unfold phase. cbn [gR gC]. split; [|exact RN].
    split; [rewrite R1; exact P1|]. exists sy'. eexists. split; [exact WC2|].
    intros r0 Er. rewrite EV, EW. destruct o as [recs0|]; [|discriminate]. cbn [snoc_rec fst] in Er.
    destruct (OK _ eq_refl) as [<- [OK1 OK2]].
    destruct (inside (w_mms (g_wrk st)) (firstn (w_dim (g_wrk st)) keys)) eqn:IN; [|discriminate]. injection Er as <-.
    split; [reflexivity|]. unfold good_recs. rewrite R6. cbn. split; [exact OK1|]. apply Forall_app. split; [exact OK2|].
    constructor; [|constructor].
    destruct (do_write_cases _ _ _ _ _ _ _ _ (wc_cur _ _ _ _ _ _ WC) (wc_sym _ _ _ _ _ _ WC) E) as (_ & LV & _).
    rewrite EW in LV |- *. split; [apply inside_spec; exact IN|]. cbn [snd]. rewrite map_length, firstn_length. split; [lia|].
    apply classify_all_ok; [rewrite <- EV; apply (co_tab _ _ _ _ _ C1)|]. apply firstn_Forall. exact V.
Qed.

(** ** Mapped and string records *)

Definition buf_started (h : fhead) (base : list Z) (G : ghost) (m : gmode) (dim typ : Z) (st : gst) (r : resp) (st' : gst) : Prop :=
  r = ret 1 /\ gC G = GIdle /\ g_mode st = fw_init /\ g_env st' = g_env st /\ g_aft st' = g_aft st /\ g_mode st' = m /\
  winv h base (mkG (gR G ++ [None]) (GBuf (zlen (gR G) + 1) [])) st' /\
  w_dim (g_wrk st') = Z.to_nat dim /\ data_size typ = Some (w_dsize (g_wrk st')) /\ w_wrb (g_wrk st') = repeat None (Z.to_nat dim) /\
  0 <= dim <= 20.

Lemma buf_start_tail : forall h base R n m f st,
  prepared z h base R n st -> In m [fw_dom_map; fw_dom_str] ->
  (forall w, w_cur (f w) = w_cur w /\ w_dim (f w) = w_dim w /\ w_dsize (f w) = w_dsize w /\ w_mms (f w) = w_mms w /\
             w_last (f w) = w_last w /\ w_sort (f w) = Some []) ->
  (m = fw_dom_str -> w_lstr (f (g_wrk st)) = repeat [127] (w_dim (g_wrk st))) ->
  winv h base (mkG (R ++ [None]) (GBuf n [])) (set_g_mode m (upd_wrk f st)).
Proof.
  intros h base R n m f st [PC [PN1 PN2] PCU (sy & s & GS & WD & DS & ST & OB & AC & BI) PM PL] M F L.
  destruct (F (g_wrk st)) as (F1 & F2 & F3 & F4 & F5 & F6). split.
  - cbn [gR]. eapply core_frame; [exact PC|reflexivity..|exact (co_err _ _ _ _ _ PC)].
  - unfold phase. cbn [gR gC]. split.
    2:{ replace (n - 1) with (zlen R) by lia. apply znth_snoc. }
    constructor; cbn.
    + destruct M as [<-|[<-|[]]]; cbn; auto.
    + rewrite F1. exact PCU.
    + exists sy, s. rewrite F2, F3, F4, PM, repeat_length. auto 12.
    + exact F6.
    + constructor.
    + rewrite F4, PM. apply Forall_forall. intros mm I. apply repeat_spec in I. subst mm. unfold mm_ok, uel_count.
      cbn [fst snd]. pose proof (zlen_nonneg (d_uels (g_dic st))). unfold INT_MAX. lia.
    + intros M'. destruct M as [<-|[<-|[]]].
      * cbn in M'. intuition discriminate.
      * rewrite (L eq_refl), F5, F4, PL, PM. generalize (w_dim (g_wrk st)) as k. induction k; cbn; constructor; auto.
Qed.

Lemma map_start_step : forall h base G name text dim typ uinfo st r st',
  winv h base G st -> start_ok name text dim typ uinfo ->
  write_map_start z name text dim typ uinfo st = Done (r, st') ->
  refused_start h base G st r st' \/ buf_started h base G fw_dom_map dim typ st r st'.
Proof.
  intros h base G name text dim typ uinfo st r st' W A H. unfold write_map_start in H. obind_inv H. destruct x as [ok st1].
  destruct (prepare_step _ _ _ _ _ _ _ _ _ _ _ W A E) as [[-> RS]|(-> & C & P & SD)]; cbn [negb] in H.
  - injection H as <- <-. left. exact RS.
  - right. destruct SD as [D1 D2 D3 D4 D5 D5' D6 D7 D8 D9 D10]. injection H as <- <-.
    unfold buf_started. repeat (split; [assumption || reflexivity|]). split.
    + apply buf_start_tail; [exact P|cbn; auto|intros; repeat split|discriminate].
    + auto.
Qed.

Lemma str_start_step : forall h base G name text dim typ uinfo st r st',
  winv h base G st -> start_ok name text dim typ uinfo ->
  write_str_start z name text dim typ uinfo st = Done (r, st') ->
  refused_start h base G st r st' \/
  (buf_started h base G fw_dom_str dim typ st r st' /\ w_lstr (g_wrk st') = repeat [127] (Z.to_nat dim) /\
   w_last (g_wrk st') = repeat INDEX_INITIAL (Z.to_nat dim)).
Proof.
  intros h base G name text dim typ uinfo st r st' W A H. unfold write_str_start in H. obind_inv H. destruct x as [ok st1].
  destruct (prepare_step _ _ _ _ _ _ _ _ _ _ _ W A E) as [[-> RS]|(-> & C & P & SD)]; cbn [negb] in H.
  - injection H as <- <-. left. exact RS.
  - right. destruct SD as [D1 D2 D3 D4 D5 D5' D6 D7 D8 D9 D10]. injection H as <- <-.
    pose proof (pr_last _ _ _ _ _ _ P) as PL.
    split; [|cbn; rewrite PL, D7; auto].
    unfold buf_started. repeat (split; [assumption || reflexivity|]). split.
    + apply buf_start_tail; [exact P|cbn; auto|intros; repeat split|reflexivity].
    + auto.
Qed.

(** Bounds only get wider. *)
Definition wider (a b : Z * Z) : Prop := fst b <= fst a /\ snd a <= snd b.
Lemma wider_refl : forall l, Forall2 wider l l.
Proof. induction l; constructor; auto. unfold wider. lia. Qed.
Lemma wider_widen : forall n mm, wider mm (widen n mm).
Proof. intros n mm. unfold wider, widen. cbn [fst snd]. lia. Qed.
Lemma in_bounds_wider : forall l l' ks, Forall2 wider l l' -> Forall2 in_bounds l ks -> Forall2 in_bounds l' ks.
Proof.
  intros l l' ks H. revert ks. induction H as [| a b l l' [A B] H IH]; intros ks F; inversion F; subst; constructor; auto.
  unfold in_bounds in *. lia.
Qed.
Lemma in_widen : forall n mm, in_bounds (widen n mm) n.
Proof. intros n mm. unfold in_bounds, widen. cbn [fst snd]. lia. Qed.
Lemma mm_ok_widen : forall d n mm, mm_ok d mm -> 0 <= n <= uel_count d -> n <= INT_MAX \/ True -> mm_ok d (widen n mm).
Proof. intros d n mm [A B] N _. unfold mm_ok, widen. cbn [fst snd]. lia. Qed.

(** gdxDataWriteMap: the numbers of the labels. *)
Lemma map_keys_spec : forall d keys mms r mms', user_ok d -> Forall (mm_ok d) mms -> length keys = length mms ->
  map_keys (d_usr d) keys mms = (r, mms') ->
  Forall2 wider mms mms' /\ Forall (mm_ok d) mms' /\
  (forall ks, r = Some ks -> Forall2 in_bounds mms' ks /\ ks = List.map (im_get (d_usr d)) keys /\ Forall (fun k => 1 <= k <= uel_count d) ks) /\
  (r = None -> exists k, In k keys /\ im_get (d_usr d) k = -1).
Proof.
  intros d keys mms r mms' [_ U] F. revert r keys mms'. induction F as [| mm mms M F IH]; intros r keys mms' L H; destruct keys as [|k keys]; try discriminate L.
  - cbn in H. injection H as <- <-. split; [constructor|]. split; [constructor|]. split; [|discriminate]. intros ks E. injection E as <-.
    split; [constructor|]. split; [reflexivity|constructor].
  - cbn [map_keys] in H. cbv zeta in H. destruct (Z.ltb_spec (im_get (d_usr d) k) 0) as [N|N].
    + injection H as <- <-. split; [apply wider_refl|]. split; [constructor; assumption|]. split; [discriminate|]. intros _.
      exists k. split; [left; reflexivity|]. destruct (U k); lia.
    + destruct (map_keys (d_usr d) keys mms) as [r1 mms1] eqn:E. injection H as <- <-.
      injection L as L. destruct (IH _ _ _ L E) as (A & B & C & D). pose proof (U k) as UK.
      split; [constructor; [apply wider_widen|exact A]|].
      split; [constructor; [apply mm_ok_widen; [exact M|lia|auto]|exact B]|]. split.
      * intros ks Ek. destruct r1 as [ks1|]; [|discriminate]. cbn in Ek. injection Ek as <-. destruct (C _ eq_refl) as (C1 & -> & C3).
        split; [constructor; [apply in_widen|exact C1]|]. split; [reflexivity|]. constructor; [lia|exact C3].
      * intros Ek. destruct r1; [discriminate|]. destruct (D eq_refl) as (k' & I & Q). exists k'. split; [right; exact I|exact Q].
Qed.

Lemma items_wider : forall l l' dsize (items : list (list Z * list Z)), Forall2 wider l l' ->
  Forall (fun it => Forall2 in_bounds l (fst it) /\ length (snd it) = dsize /\ Forall u64_ok (snd it)) items ->
  Forall (fun it => Forall2 in_bounds l' (fst it) /\ length (snd it) = dsize /\ Forall u64_ok (snd it)) items.
Proof.
  intros l l' dsize items W F. eapply Forall_impl; [|exact F]. intros it (A & B). split; [eapply in_bounds_wider; eassumption|exact B].
Qed.

Definition buf_same (st st' : gst) : Prop :=
  let w := g_wrk st in let w' := g_wrk st' in
  g_env st' = g_env st /\ g_aft st' = g_aft st /\ w_dim w' = w_dim w /\ w_dsize w' = w_dsize w /\ w_wrb w' = w_wrb w /\ mode_step (g_mode st) (g_mode st').

Lemma buf_same_err : forall st st1 st', buf_same st st1 -> err_only st1 st' -> buf_same st st'.
Proof.
  intros st st1 st' B E. destruct (err_only_eq _ _ E) as (A1 & A2 & A3 & _ & _ & A6 & _). unfold buf_same in *. rewrite A1, A2, A3, A6. exact B.
Qed.

Lemma enter_step : forall a b st, mode_step a b -> buf_same st (enter a b st) /\ wrk_same (g_wrk st) (g_wrk (enter a b st)).
Proof.
  intros a b st M. destruct (calm_enter a b st M) as (A1 & A2 & A3 & A4). destruct (enter_env a b st) as (E1 & E2 & E3).
  split; [|exact A3]. unfold buf_same. rewrite E1, E3, A2. auto 10.
Qed.

Lemma write_map_step : forall h base G keys vals st r st',
  winv h base G st -> Forall u64_ok vals ->
  write_map keys vals st = Done (r, st') ->
  (r = ret 0 /\ winv h base G st' /\ buf_same st st' /\ g_dic st' = g_dic st /\
     (forall n items, gC G = GBuf n items -> True)) \/
  (r = ret 1 /\ exists n items ks,
     gC G = GBuf n items /\ ks = List.map (im_get (d_usr (g_dic st))) (firstn (w_dim (g_wrk st)) keys) /\
     (w_dim (g_wrk st) <= length keys)%nat /\ (w_dsize (g_wrk st) <= length vals)%nat /\
     Forall (fun k => 1 <= k <= uel_count (g_dic st)) ks /\
     winv h base (mkG (gR G) (GBuf n (items ++ [(ks, firstn (w_dsize (g_wrk st)) vals)]))) st' /\
     buf_same st st' /\ g_dic st' = g_dic st).
Proof.
  intros h base G keys vals st r st' W V H. unfold write_map in H.
  pose proof (winv_enter z h base G st _ _ W ms_map) as W1. destruct (enter_step fw_dom_map fw_map_data st ms_map) as [BS WS].
  destruct (enter_env fw_dom_map fw_map_data st) as (EV & ED & EW).
  set (st1 := enter fw_dom_map fw_map_data st) in *. clearbody st1.
  unfold checked, refuse in H. destruct (mode_in (g_mode st1) [fw_map_data]) eqn:M.
  2:{ injection H as <- <-. left. split; [reflexivity|]. split; [apply winv_set_error; assumption|].
      split; [eapply buf_same_err; [exact BS|apply err_only_set_error]|].
      destruct (err_only_eq _ _ (err_only_set_error ERR_BADMODE st1)) as (_ & _ & _ & _ & X & _). split; [congruence|auto]. }
  apply mode_in_true in M. destruct M as [M|[]]. cbv zeta in H.
  destruct ((length keys <? w_dim (g_wrk st1))%nat || (length vals <? w_dsize (g_wrk st1))%nat) eqn:LL; [discriminate|].
  apply Bool.orb_false_iff in LL. destruct LL as [L1 L2]. apply Nat.ltb_ge in L1, L2.
  destruct (map_keys (d_usr (g_dic st1)) (firstn (w_dim (g_wrk st1)) keys) (w_mms (g_wrk st1))) as [mr mms] eqn:MK.
  destruct G as [R c]. destruct W1 as [C1 P1]. cbn [gR] in C1. unfold phase in P1. cbn [gR gC] in P1.
  destruct c as [|n o|n items].
  { destruct P1 as [[P1|[P1 _]] _]; rewrite <- M in P1; [discriminate|]. cbn in P1. intuition discriminate. }
  { destruct P1 as [[P1 _] _]. rewrite <- M in P1. cbn in P1. intuition discriminate. }
  destruct P1 as [[B1 B2 (sy & s & S1 & S2 & S3 & S4 & S5 & S6 & S7) B4 B5 B6 B7] RN].
  assert (LK : length (firstn (w_dim (g_wrk st1)) keys) = length (w_mms (g_wrk st1))) by (rewrite firstn_length; lia).
  destruct (map_keys_spec _ _ _ _ _ (di_usr _ _ (co_dic _ _ _ _ _ C1)) B6 LK MK) as (K1 & K2 & K3 & _).
  assert (LM : length mms = sy_dim sy) by (rewrite <- S4; symmetry; eapply Forall2_length; exact K1).
  assert (C2 : core z h base R (upd_wrk (set_w_mms mms) st1)).
  { eapply core_frame; [exact C1|reflexivity..|exact (co_err _ _ _ _ _ C1)]. }
  assert (P2 : buf_phase z base n items (upd_wrk (set_w_mms mms) st1)).
  { constructor; cbn; auto.
    - exists sy, s. auto 10.
    - eapply items_wider; [exact K1|exact B5].
    - intros M'. rewrite <- M in M'. cbn in M'. intuition discriminate. }
  destruct mr as [ks|].
  2:{ unfold fail_with in H. injection H as <- <-. left. split; [reflexivity|]. split.
      - apply winv_set_error. split; [exact C2|]. unfold phase. cbn [gR gC]. auto.
      - split; [eapply buf_same_err; [|apply err_only_set_error]; exact BS|].
        destruct (err_only_eq _ _ (err_only_set_error ERR_BADELEMENTINDEX (upd_wrk (set_w_mms mms) st1))) as (_ & _ & _ & _ & X & _).
        split; [rewrite X; exact ED|auto]. }
  destruct (K3 _ eq_refl) as (K4 & -> & K6). right.
  unfold add_item in H. cbn [upd_wrk upd g_wrk set_g_wrk w_sort set_w_mms] in H. rewrite B4 in H. cbn [obind] in H. unfold okay in H.
  injection H as <- <-. split; [reflexivity|]. exists n, items. eexists. cbn [gC gR]. split; [reflexivity|]. rewrite <- EW, <- ED.
  split; [reflexivity|]. split; [exact L1|]. split; [exact L2|]. split; [exact K6|]. split.
  - split; [cbn [gR]; eapply core_frame; [exact C2|reflexivity..|exact (co_err _ _ _ _ _ C2)]|].
    unfold phase. cbn [gR gC]. split; [|exact RN]. destruct P2. constructor; auto.
    cbn. apply Forall_app. split; [assumption|]. constructor; [|constructor]. split; [exact K4|]. cbn [snd]. split.
    + cbn. rewrite firstn_length. lia.
    + apply firstn_Forall. exact V.
  - split; [exact BS|reflexivity].
Qed.

(** gdxDataWriteStr, one list per dimension instead of arrays. *)
Fixpoint str_loop (keys : list str) (cs : list str) (ls : list Z) (mms : list (Z * Z)) (d : dic)
    : outcome (bool * (list str * list Z * list (Z * Z)) * dic) :=
  match keys, cs, ls, mms with
  | [], _, _, _ => Done (true, (cs, ls, mms), d)
  | s :: r, c :: cs', l :: ls', mm :: mms' =>
      do x <- str_key s c l mm d ;;
      match x with
      | None => Done (false, (cs, ls, mms), d)
      | Some (c', n, mm', d') =>
          do y <- str_loop r cs' ls' mms' d' ;;
          let '(b, (cs2, ls2, mms2), d2) := y in Done (b, (c' :: cs2, n :: ls2, mm' :: mms2), d2)
      end
  | _, _, _, _ => UB
  end.

Lemma nth_error_mid : forall {A} (p : list A) a q, nth_error (p ++ a :: q) (length p) = Some a.
Proof. intros A p a q. rewrite nth_error_app2 by lia. rewrite Nat.sub_diag. reflexivity. Qed.
Lemma set_nth_mid : forall {A} (p : list A) a b q, set_nth (length p) b (p ++ a :: q) = p ++ b :: q.
Proof. intros A p a b q. induction p as [|x p IH]; cbn; [reflexivity|]. f_equal. exact IH. Qed.

Definition put_str (p1 : list str) (p2 : list Z) (p3 : list (Z * Z)) (y : bool * (list str * list Z * list (Z * Z)) * dic) (st : gst) : gst :=
  let '(b, (cs, ls, mms), d) := y in
  let st' := set_g_dic d (upd_wrk (fun w => set_w_lstr (p1 ++ cs) (set_w_last (p2 ++ ls) (set_w_mms (p3 ++ mms) w))) st) in
  if b then st' else set_error ERR_BADUELSTR st'.

Lemma str_keys_loop : forall keys i p1 p2 p3 cs ls mms st b st',
  w_lstr (g_wrk st) = p1 ++ cs -> w_last (g_wrk st) = p2 ++ ls -> w_mms (g_wrk st) = p3 ++ mms ->
  length p1 = i -> length p2 = i -> length p3 = i ->
  str_keys keys i st = Done (b, st') ->
  exists y, str_loop keys cs ls mms (g_dic st) = Done y /\ fst (fst y) = b /\ st' = put_str p1 p2 p3 y st.
Proof.
  induction keys as [| s keys IH]; intros i p1 p2 p3 cs ls mms st b st' E1 E2 E3 L1 L2 L3 H; cbn [str_keys] in H.
  - injection H as <- <-. exists (true, (cs, ls, mms), g_dic st). split; [reflexivity|]. split; [reflexivity|]. cbn.
    destruct st as [x1 x2 x3 x4 x5 x6 x7 x8]; cbn in *. rewrite <- E1, <- E2, <- E3. destruct x7; reflexivity.
  - rewrite E1, E2, E3 in H. cbv zeta in H.
    destruct cs as [|c cs]. { rewrite app_nil_r, (proj2 (nth_error_None p1 i)) in H by lia. discriminate. }
    rewrite <- L1 in H at 1. rewrite nth_error_mid in H.
    destruct ls as [|l ls]. { rewrite app_nil_r, (proj2 (nth_error_None p2 i)) in H by lia. discriminate. }
    rewrite <- L2 in H at 1. rewrite nth_error_mid in H.
    destruct mms as [|mm mms]. { rewrite app_nil_r, (proj2 (nth_error_None p3 i)) in H by lia. discriminate. }
    rewrite <- L3 in H at 1. rewrite nth_error_mid in H. cbn [str_loop].
    destruct (str_key s c l mm (g_dic st)) as [x|]; [|discriminate]. cbn [obind] in H |- *.
    destruct x as [[[[c' n] mm'] d']|].
    + apply (IH _ (p1 ++ [c']) (p2 ++ [n]) (p3 ++ [mm']) cs ls mms) in H.
      * destruct H as ([[b' [[cs2 ls2] mms2]] d2] & Y1 & Y2 & ->). cbn [g_dic set_g_dic] in Y1. rewrite Y1. cbn [obind].
        eexists. split; [reflexivity|]. split; [exact Y2|]. cbn [put_str]. rewrite <- !app_assoc. cbn [app]. reflexivity.
      * cbn. rewrite E1, <- L1, set_nth_mid, <- app_assoc. reflexivity.
      * cbn. rewrite E2, <- L2, set_nth_mid, <- app_assoc. reflexivity.
      * cbn. rewrite E3, <- L3, set_nth_mid, <- app_assoc. reflexivity.
      * rewrite app_length. cbn. lia.
      * rewrite app_length. cbn. lia.
      * rewrite app_length. cbn. lia.
    + injection H as <- <-. eexists. split; [reflexivity|]. split; [reflexivity|]. cbn [put_str fst]. f_equal.
      destruct st as [x1 x2 x3 x4 x5 x6 x7 x8]; cbn in *. rewrite <- E1, <- E2, <- E3. destruct x7; reflexivity.
Qed.

Definition uels_grow (d d' : dic) : Prop := exists t, d' = set_d_uels (d_uels d ++ t) d /\ Forall (fun e => snd e = -1 /\ wf_label (fst e)) t.
Lemma uels_grow_refl : forall d, uels_grow d d.
Proof. intros d. exists []. rewrite app_nil_r. split; [destruct d; reflexivity|constructor]. Qed.
Lemma uels_grow_trans : forall a b c, uels_grow a b -> uels_grow b c -> uels_grow a c.
Proof.
  intros a b c (t & -> & T) (u & -> & U). exists (t ++ u). cbn [d_uels set_d_uels]. rewrite app_assoc. split; [reflexivity|].
  apply Forall_app. split; assumption.
Qed.
Lemma uels_grow_count : forall d d', uels_grow d d' -> uel_count d <= uel_count d'.
Proof. intros d d' (t & -> & _). unfold uel_count. cbn [d_uels set_d_uels]. rewrite zlen_app. pose proof (zlen_nonneg t). lia. Qed.
Lemma uels_grow_names : forall d d', uels_grow d d' -> d_names d' = d_names d /\ d_usr d' = d_usr d.
Proof. intros d d' (t & -> & _). split; reflexivity. Qed.

Lemma str_key_spec : forall np s c l mm d x, dinv np d -> str_ok s -> str_key s c l mm d = Done x -> mm_ok d mm ->
  (hd 0 c = 127 \/ in_bounds mm l) ->
  match x with
  | None => uel_find d (trim_right s) = -1 /\ good_uel (trim_right s) = false
  | Some (c', n, mm', d') => dinv np d' /\ uels_grow d d' /\ mm_ok d' mm' /\ wider mm mm' /\ in_bounds mm' n
  end.
Proof.
  intros np s c l mm d x I S H M C. unfold str_key in H. obind_inv H. destruct (trim_store_ok _ _ E S) as [-> T].
  set (t := trim_right s) in *. destruct (negb (hd 0 c =? 127) && str_eqb t c) eqn:Q.
  - injection H as <-. apply Bool.andb_true_iff in Q. destruct Q as [Q _]. destruct (Z.eqb_spec (hd 0 c) 127); [discriminate|].
    split; [exact I|]. split; [apply uels_grow_refl|]. split; [exact M|]. split; [unfold wider; lia|]. destruct C; [contradiction|assumption].
  - cbv zeta in H. destruct (Z.eqb_spec (uel_find d t) (-1)) as [N|N].
    + destruct (good_uel t) eqn:GU; [|injection H as <-; auto]. destruct (uel_add t d) as [n d'] eqn:UA. injection H as <-.
      pose proof (label_text t T GU) as TX.
      split; [eapply dinv_uel_add; eassumption|]. destruct (uel_add_spec _ _ _ _ UA) as (u & -> & UT & UN).
      split. { exists u. split; [reflexivity|]. destruct UT as [-> | ->]; constructor; [|constructor]. split; [reflexivity|]. apply good_uel_spec. exact GU. }
      split; [|split; [apply wider_widen|apply in_widen]].
      apply mm_ok_widen; [|lia|auto]. destruct M as [M1 M2]. split; [exact M1|]. unfold uel_count in *. cbn [d_uels set_d_uels].
      rewrite zlen_app. pose proof (zlen_nonneg u). lia.
    + injection H as <-. split; [exact I|]. split; [apply uels_grow_refl|]. split; [|split; [apply wider_widen|apply in_widen]].
      apply mm_ok_widen; [exact M| |auto]. unfold uel_find in *. destruct (sl_find true (d_uels d) t) as [k|] eqn:F; [|congruence].
      apply sl_find_range in F. unfold uel_count. lia.
Qed.

Lemma str_loop_spec : forall np keys cs ls mms d y, dinv np d -> Forall str_ok keys -> Forall (mm_ok d) mms -> caches_ok cs ls mms ->
  str_loop keys cs ls mms d = Done y ->
  let '(b, (cs', ls', mms'), d') := y in
  dinv np d' /\ uels_grow d d' /\ Forall (mm_ok d') mms' /\ Forall2 wider mms mms' /\ caches_ok cs' ls' mms' /\
  (b = true -> length keys = length mms -> Forall2 in_bounds mms' ls').
Proof.
  intros np keys. induction keys as [| s keys IH]; intros cs ls mms d y I K M C H; cbn [str_loop] in H.
  - injection H as <-. split; [exact I|]. split; [apply uels_grow_refl|]. split; [exact M|]. split; [apply wider_refl|]. split; [exact C|].
    intros _ L. destruct mms; [|discriminate]. inversion C. constructor.
  - destruct C as [|c l mm cs ls mms CO C]; [discriminate|]. inversion M as [|? ? M1 M2]; subst. inversion K as [|? ? K1 K2]; subst.
    obind_inv H. pose proof (str_key_spec _ _ _ _ _ _ _ I K1 E M1 CO) as SK. destruct x as [[[[c' n] mm'] d']|].
    + destruct SK as (S1 & S2 & S3 & S4 & S5). obind_inv H. destruct x as [[b [[cs2 ls2] mms2]] d2]. injection H as <-.
      assert (GM : forall a b, uels_grow a b -> forall q, mm_ok a q -> mm_ok b q).
      { intros a0 b0 U q [Q1 Q2]. split; [exact Q1|]. pose proof (uels_grow_count _ _ U). lia. }
      apply (IH _ _ _ _ _ S1 K2) in E0; [|eapply Forall_impl; [|exact M2]; apply GM; exact S2|exact C].
      cbv beta iota in E0. destruct E0 as (E1 & E2 & E3 & E4 & E5 & E6).
      split; [exact E1|]. split; [eapply uels_grow_trans; eassumption|]. split; [constructor; [eapply GM; eassumption|exact E3]|].
      split; [constructor; assumption|]. split; [constructor; [right|]; assumption|]. intros Eb L. injection L as L. constructor; auto.
    + injection H as <-. split; [exact I|]. split; [apply uels_grow_refl|]. split; [constructor; assumption|]. split; [apply wider_refl|].
      split; [constructor; assumption|]. discriminate.
Qed.

Lemma caches_lengths : forall cs ls mms, caches_ok cs ls mms -> length cs = length mms /\ length ls = length mms.
Proof. intros cs ls mms C. induction C; cbn; [auto|]. lia. Qed.

Lemma write_str_step : forall h base G keys vals st r st',
  winv h base G st -> Forall str_ok keys -> Forall u64_ok vals ->
  write_str keys vals st = Done (r, st') ->
  (r = ret 0 /\ winv h base G st' /\ buf_same st st' /\ uels_grow (g_dic st) (g_dic st') /\
     ((w_lstr (g_wrk st') = w_lstr (g_wrk st) /\ w_last (g_wrk st') = w_last (g_wrk st)) \/
      exists mms', str_loop (firstn (w_dim (g_wrk st)) keys) (w_lstr (g_wrk st)) (w_last (g_wrk st)) (w_mms (g_wrk st)) (g_dic st) =
        Done (false, (w_lstr (g_wrk st'), w_last (g_wrk st'), mms'), g_dic st'))) \/
  (r = ret 1 /\ exists n items,
     gC G = GBuf n items /\ (w_dim (g_wrk st) <= length keys)%nat /\ (w_dsize (g_wrk st) <= length vals)%nat /\
     winv h base (mkG (gR G) (GBuf n (items ++ [(w_last (g_wrk st'), firstn (w_dsize (g_wrk st)) vals)]))) st' /\
     buf_same st st' /\ uels_grow (g_dic st) (g_dic st') /\
     exists mms', str_loop (firstn (w_dim (g_wrk st)) keys) (w_lstr (g_wrk st)) (w_last (g_wrk st)) (w_mms (g_wrk st)) (g_dic st) =
       Done (true, (w_lstr (g_wrk st'), w_last (g_wrk st'), mms'), g_dic st')).
Proof.
  intros h base G keys vals st r st' W KO V H. unfold write_str in H.
  pose proof (winv_enter z h base G st _ _ W ms_str) as W1. destruct (enter_step fw_dom_str fw_str_data st ms_str) as [BS WS].
  destruct (enter_env fw_dom_str fw_str_data st) as (EV & ED & EW).
  set (st1 := enter fw_dom_str fw_str_data st) in *. clearbody st1.
  unfold checked, refuse in H. destruct (mode_in (g_mode st1) [fw_str_data]) eqn:M.
  2:{ injection H as <- <-. left. split; [reflexivity|]. split; [apply winv_set_error; assumption|].
      split; [eapply buf_same_err; [exact BS|apply err_only_set_error]|].
      destruct (err_only_eq _ _ (err_only_set_error ERR_BADMODE st1)) as (_ & _ & _ & _ & X & X2 & _). rewrite X, ED.
      split; [apply uels_grow_refl|]. left. rewrite X2, EW. auto. }
  apply mode_in_true in M. destruct M as [M|[]]. cbv zeta in H.
  destruct ((length keys <? w_dim (g_wrk st1))%nat || (length vals <? w_dsize (g_wrk st1))%nat) eqn:LL; [discriminate|].
  apply Bool.orb_false_iff in LL. destruct LL as [L1 L2]. apply Nat.ltb_ge in L1, L2.
  obind_inv H. destruct x as [ok st2].
  destruct G as [R c]. destruct W1 as [C1 P1]. cbn [gR] in C1. unfold phase in P1. cbn [gR gC] in P1.
  destruct c as [|n o|n items].
  { destruct P1 as [[P1|[P1 _]] _]; rewrite <- M in P1; [discriminate|]. cbn in P1. intuition discriminate. }
  { destruct P1 as [[P1 _] _]. rewrite <- M in P1. cbn in P1. intuition discriminate. }
  destruct P1 as [[B1 B2 (sy & s & S1 & S2 & S3 & S4 & S5 & S6 & S7) B4 B5 B6 B7] RN].
  assert (CO : caches_ok (w_lstr (g_wrk st1)) (w_last (g_wrk st1)) (w_mms (g_wrk st1))) by (apply B7; rewrite <- M; cbn; auto).
  destruct (str_keys_loop _ O [] [] [] _ _ _ _ _ _ eq_refl eq_refl eq_refl eq_refl eq_refl eq_refl E) as (y & SL & OK & E2). clear E.
  pose proof (str_loop_spec _ _ _ _ _ _ _ (co_dic _ _ _ _ _ C1) (firstn_Forall _ _ _ KO) B6 CO SL) as SP.
  destruct y as [[b [[cs' ls'] mms']] d']. cbn [fst] in OK. subst b. cbv beta iota in SP.
  destruct SP as (K1 & K2 & K3 & K4 & K5 & K6).
  destruct (uels_grow_names _ _ K2) as [N1 N2].
  assert (LM : length mms' = sy_dim sy) by (rewrite <- S4; symmetry; eapply Forall2_length; exact K4).
  set (st3 := set_g_dic d' (upd_wrk (fun w => set_w_lstr cs' (set_w_last ls' (set_w_mms mms' w))) st1)).
  assert (C2 : core z h base R st3).
  { destruct C1. constructor; auto. cbn. rewrite N1. assumption. }
  assert (P2 : buf_phase z base n items st3).
  { constructor; cbn; auto.
    - exists sy, s. split; [|auto 10]. unfold get_sym in S1 |- *. rewrite N1. exact S1.
    - eapply items_wider; [exact K4|exact B5]. }
  assert (BS3 : buf_same st st3) by exact BS.
  assert (GR3 : uels_grow (g_dic st) (g_dic st3)) by (rewrite <- ED; exact K2).
  destruct ok.
  2:{ injection H as <- <-. left. split; [reflexivity|]. cbn [put_str app] in E2. fold st3 in E2. subst st2. split.
      - apply winv_set_error. split; [exact C2|]. unfold phase. cbn [gR gC]. auto.
      - split; [eapply buf_same_err; [exact BS3|apply err_only_set_error]|].
        destruct (err_only_eq _ _ (err_only_set_error ERR_BADUELSTR st3)) as (_ & _ & _ & _ & X & X2 & _). rewrite X. split; [exact GR3|]. right.
        exists mms'. rewrite X2, <- ED, <- EW. exact SL. }
  cbn [put_str app] in E2. fold st3 in E2. subst st2. right.
  unfold add_item in H. change (w_sort (g_wrk st3)) with (w_sort (g_wrk st1)) in H. rewrite B4 in H. cbn [obind] in H. unfold okay in H.
  injection H as <- <-. split; [reflexivity|]. exists n, items. cbn [gC gR]. split; [reflexivity|]. rewrite <- EW.
  split; [exact L1|]. split; [exact L2|]. change (w_last (g_wrk st3)) with ls'.
  assert (LF : firstn (w_dim (g_wrk st1)) ls' = ls').
  { apply firstn_all2. destruct (caches_lengths _ _ _ K5). lia. }
  rewrite LF.
  assert (LKK : length (firstn (w_dim (g_wrk st1)) keys) = length (w_mms (g_wrk st1))) by (rewrite firstn_length; lia).
  split.
  - split; [cbn [gR]; eapply core_frame; [exact C2|reflexivity..|exact (co_err _ _ _ _ _ C2)]|].
    unfold phase. cbn [gR gC]. split; [|exact RN]. destruct P2. constructor; auto.
    cbn. apply Forall_app. split; [assumption|]. constructor; [|constructor]. split; [apply K6; auto|]. cbn [snd]. split.
    + cbn. rewrite firstn_length. lia.
    + apply firstn_Forall. exact V.
  - split; [exact BS3|]. split; [exact GR3|]. exists mms'. rewrite <- ED. exact SL.
Qed.

(** ** Finishing a symbol *)

Definition done_ok (G : ghost) (n : Z) (o : option (list srec)) (h : fhead) (base : list Z) (st : gst) (r : resp) (st' : gst) : Prop :=
  r = ret 1 /\ (exists t, winv h (base ++ t) (mkG (zset (n - 1) o (gR G)) GIdle) st') /\ g_mode st' = fw_init /\ g_aft st' = g_aft st /\ g_env st' = g_env st.

Lemma write_done_raw_step : forall h base G n o st r st', winv h base G st -> gC G = GRaw n o ->
  data_write_done z st = Done (r, st') -> done_ok G n o h base st r st' /\
  exists f, g_dic st' = upd_sym n f (g_dic st) /\ forall s, sy_doms (f s) = sy_doms s /\ sy_type (f s) = sy_type s /\ sy_dim (f s) = sy_dim s.
Proof.
  intros h base [R c] n o st r st' [C P] EG H. cbn [gC gR] in *. subst c. unfold phase in P. cbn [gC gR] in P.
  destruct P as [(M & sy & recs & WC & OK) RN]. unfold data_write_done, checked in H.
  assert (MI : mode_in (g_mode st) [fw_raw_data; fw_map_data; fw_str_data; fw_dom_raw; fw_dom_map; fw_dom_str] = true).
  { apply mode_in_true. cbn in M |- *. intuition. }
  rewrite MI in H. obind_inv H. unfold okay in H. injection H as <- <-.
  rewrite write_done_raw in E by (cbn in M |- *; intuition).
  destruct (finish_spec _ _ _ _ _ _ _ _ _ C WC RN E) as (t & F1 & F2 & F3 & F4 & F5 & F6 & F7 & F8 & F9 & F10).
  split; [|eexists; split; [exact F8|]; intros s; repeat split].
  split; [reflexivity|]. split; [|auto]. exists t. split; [|exact F3]. cbn [gR].
  destruct o as [rs|].
  - destruct (OK _ eq_refl) as [-> G]. apply F2. exact G.
  - rewrite zset_same by exact RN. exact F1.
Qed.

Lemma sym_after_bits : forall dim k x s p, sy_bits (sym_after dim k x (set_sy_pos p s)) = sy_bits (sym_after dim k x s) /\ sy_type (sym_after dim k x s) = sy_type s.
Proof.
  intros dim k x s p. unfold sym_after. cbn [sy_type set_sy_pos]. destruct ((sy_type s =? dt_set) || (sy_type s =? dt_alias)); [|split; reflexivity].
  destruct (f_iszero x); cbn [sy_bits set_sy_pos set_sy_settext]; destruct (sy_bits s); try (split; reflexivity); destruct (Nat.eqb dim 1); split; reflexivity.
Qed.
Lemma stored_sym_ext : forall dim recs a b, sy_bits a = sy_bits b -> sy_type a = sy_type b -> sy_bits (stored_sym dim recs a) = sy_bits (stored_sym dim recs b).
Proof.
  intros dim. unfold stored_sym. induction recs as [|r recs IH]; intros a b B T; [exact B|]. cbn [fold_left]. apply IH.
  - unfold sym_after. rewrite T. destruct ((sy_type b =? dt_set) || (sy_type b =? dt_alias)); [|exact B].
    destruct (f_iszero _); cbn [sy_bits set_sy_settext]; rewrite B; destruct (sy_bits b) eqn:BB; try destruct (Nat.eqb dim 1); cbn [sy_bits set_sy_bits set_sy_settext]; congruence.
  - rewrite !(proj2 (sym_after_bits _ _ _ _ 0)). exact T.
Qed.
Lemma stored_sym_bits : forall dim recs s p, sy_bits (stored_sym dim recs (set_sy_pos p s)) = sy_bits (stored_sym dim recs s).
Proof. intros. apply stored_sym_ext; reflexivity. Qed.

Lemma write_done_buf_step : forall h base G n items st r st', winv h base G st -> gC G = GBuf n items ->
  data_write_done z st = Done (r, st') ->
  exists sy sy' o, done_ok G n o h base st r st' /\ get_sym (g_dic st) n = Some sy /\
    (uel_count (g_dic st) <= INT_MAX -> exists recs rs, o = Some recs /\ stable_sort_of items rs /\
      (~ In (Some n) (w_wrb (g_wrk st)) -> recs = stored_items (e_tab (g_env st)) (g_dic st) (w_wrb (g_wrk st)) rs /\
         sy_bits sy' = sy_bits (stored_sym (w_dim (g_wrk st)) (keep (g_dic st) (w_wrb (g_wrk st)) None rs) sy) /\
         g_err st' = set_r_cnt 0 (refused_errs (g_dic st) (w_wrb (g_wrk st)) None rs (g_err st)))) /\
    (forall recs, o = Some recs -> sy_count sy' = zlen recs) /\
    (exists acs, g_dic st' = upd_sym n (fun _ => sy') (set_d_acros acs (g_dic st))) /\
    sy_doms sy' = sy_doms sy /\ sy_type sy' = sy_type sy /\ sy_dim sy' = sy_dim sy.
Proof.
  intros h base [R c] n items st r st' [C P] EG H. cbn [gC gR] in *. subst c. unfold phase in P. cbn [gC gR] in P.
  destruct P as [BP RN]. unfold data_write_done, checked in H. pose proof (bp_mode _ _ _ _ _ BP) as M.
  assert (MI : mode_in (g_mode st) [fw_raw_data; fw_map_data; fw_str_data; fw_dom_raw; fw_dom_map; fw_dom_str] = true).
  { apply mode_in_true. cbn in M |- *. intuition. }
  rewrite MI in H. obind_inv H. unfold okay in H. injection H as <- <-.
  rewrite write_done_buf in E by exact M. obind_inv E. rename x0 into st1.
  destruct (flush_items_spec _ _ _ _ _ _ _ _ C BP RN E0) as (sy & sy' & recs & rs & A1 & A2 & A3 & A4 & A5 & A6 & A7 & A8 & A9 & A10 & A11 & acs & A12).
  destruct (finish_spec _ _ _ _ _ _ _ _ _ A2 A3 RN E) as (t & F1 & F2 & F3 & F4 & F5 & F6 & F7 & F8 & F9 & F10).
  assert (NB : exists e, znth (d_names (g_dic st)) (n - 1) = Some e).
  { unfold get_sym in A1. destruct (znth (d_names (g_dic st)) (n - 1)); [eauto|discriminate]. }
  destruct NB as [e NB].
  exists sy, (done_sym recs (r_cnt (g_err st1)) sy'), (if uel_count (g_dic st) <=? INT_MAX then Some recs else None). split.
  { split; [reflexivity|]. split; [|split; [exact F4|]; split; congruence]. exists t. split; [|exact F3]. cbn [gR].
    destruct (Z.leb_spec (uel_count (g_dic st)) INT_MAX) as [L|L].
    - apply F2. auto.
    - rewrite zset_same by exact RN. exact F1. }
  split; [exact A1|]. split.
  { intros L. destruct (Z.leb_spec (uel_count (g_dic st)) INT_MAX); [|lia]. exists recs, rs. split; [reflexivity|]. split; [exact A5|]. intros NI. destruct (A6 NI) as (X1 & X2 & X3).
    split; [exact X1|]. split; [rewrite X2; apply stored_sym_bits|]. rewrite F10, X3. reflexivity. }
  split.
  { intros q Q. destruct (_ <=? _); [|discriminate]. injection Q as <-. reflexivity. }
  split.
  { exists acs. rewrite F8, A12. unfold upd_sym. cbn [d_names set_d_acros]. rewrite NB. cbn [d_names set_d_names].
    rewrite znth_zset_eq by (eapply znth_Some; exact NB). cbn [fst snd]. rewrite zset_zset. reflexivity. }
  destruct A11 as (tt0 & bits & ->). repeat split.
Qed.

(** ** Domains, texts, labels, acronyms *)

Lemma put_dom_same : forall i v s, same_sym s (set_sy_doms (option_map (set_nth i v) (sy_doms s)) s).
Proof. intros. repeat split. Qed.

Lemma winv_put_dom : forall h base G st n i v, winv h base G st -> 0 <= v <= sym_count (g_dic st) ->
  winv h base G (upd_dic (upd_sym n (fun s => set_sy_doms (option_map (set_nth i v) (sy_doms s)) s)) st).
Proof.
  intros h base G st n i v W V. apply winv_upd_sym; [exact W|intros; apply put_dom_same|].
  intros s nn nd np E -> -> []. constructor; auto. cbn. unfold refs_ok in *. destruct (sy_doms s) as [l|]; [|exact I]. cbn.
  destruct sw_doms as [A B]. split; [rewrite set_nth_length; exact A|]. apply set_nth_Forall; [exact B|]. right. exact V.
Qed.

Lemma calm_dic : forall d st, calm st (set_g_dic d st).
Proof. intros. repeat split. apply ms_same. Qed.
Lemma calm_set_error : forall e st, calm st (set_error e st).
Proof. intros. apply err_only_calm, err_only_set_error. Qed.

Lemma sym_find_range : forall d s, sym_find d s <= sym_count d.
Proof.
  intros d s. unfold sym_find. destruct (sl_find true (d_names d) s) as [n|] eqn:E.
  - apply sl_find_range in E. unfold sym_count. lia.
  - unfold sym_count. pose proof (zlen_nonneg (d_names d)). lia.
Qed.

Lemma set_error_fields : forall e st, g_mode (set_error e st) = g_mode st /\ g_env (set_error e st) = g_env st /\ g_dic (set_error e st) = g_dic st /\
  g_wrk (set_error e st) = g_wrk st /\ g_aft (set_error e st) = g_aft st /\ g_fil (set_error e st) = g_fil st.
Proof. intros e st. destruct (set_error_eq e st) as (f & -> & _). repeat split. Qed.

(** [cur] is the only symbol that changes, and only its domain. *)
Definition doms_only (cur : Z) (st st' : gst) : Prop :=
  g_mode st' = g_mode st /\ g_env st' = g_env st /\ g_aft st' = g_aft st /\ g_fil st' = g_fil st /\
  (exists wrb, g_wrk st' = set_w_wrb wrb (g_wrk st)) /\
  (exists f, g_dic st' = upd_sym cur f (g_dic st) /\ forall s, exists o, f s = set_sy_doms o s).

Lemma wrb_id : forall w, set_w_wrb (w_wrb w) w = w.
Proof. intros []. reflexivity. Qed.
Lemma upd_sym_comp : forall n f g d, upd_sym n g (upd_sym n f d) = upd_sym n (fun s => g (f s)) d.
Proof.
  intros n f g d. unfold upd_sym. destruct (znth (d_names d) (n - 1)) as [e|] eqn:E.
  - cbn [d_names set_d_names]. rewrite znth_zset_eq by (eapply znth_Some; exact E). cbn [fst snd]. rewrite zset_zset. reflexivity.
  - rewrite E. reflexivity.
Qed.
Lemma upd_sym_idf : forall n f d, (forall s, f s = s) -> upd_sym n f d = d.
Proof.
  intros n f d H. unfold upd_sym. destruct (znth (d_names d) (n - 1)) as [[nm s]|] eqn:E; [|reflexivity].
  cbn [fst snd]. rewrite H, zset_same by exact E. destruct d; reflexivity.
Qed.
Lemma doms_only_refl : forall cur st, doms_only cur st st.
Proof.
  intros cur st. repeat split.
  - exists (w_wrb (g_wrk st)). symmetry. apply wrb_id.
  - exists (fun s => s). split; [symmetry; apply upd_sym_idf; reflexivity|]. intros s. exists (sy_doms s). destruct s; reflexivity.
Qed.
Lemma doms_only_trans : forall cur a b c, doms_only cur a b -> doms_only cur b c -> doms_only cur a c.
Proof.
  intros cur a b c (A1 & A2 & A3 & A4 & (wa & A5) & (f & A6 & A7)) (B1 & B2 & B3 & B4 & (wb & B5) & (g & B6 & B7)).
  unfold doms_only. rewrite B1, B2, B3, B4, B5, B6, A5, A6. repeat (split; [assumption|]). split.
  - exists wb. destruct (g_wrk a); reflexivity.
  - exists (fun s => g (f s)). split; [apply upd_sym_comp|]. intros s. destruct (B7 (f s)) as [o ->]. destruct (A7 s) as [o' ->]. exists o. destruct s; reflexivity.
Qed.
Lemma doms_only_err : forall cur e st, doms_only cur st (set_error e st).
Proof.
  intros cur e st. destruct (set_error_fields e st) as (A1 & A2 & A3 & A4 & A5 & A6). unfold doms_only. rewrite A1, A2, A3, A4, A5, A6.
  apply (doms_only_refl cur st).
Qed.
Lemma doms_only_put : forall cur f st, (forall s, exists o, f s = set_sy_doms o s) -> doms_only cur st (upd_dic (upd_sym cur f) st).
Proof.
  intros cur f st H. repeat split.
  - exists (w_wrb (g_wrk st)). symmetry. apply wrb_id.
  - exists f. split; [reflexivity|exact H].
Qed.
Lemma doms_only_wrb : forall cur l st, doms_only cur st (upd_wrk (fun w => set_w_wrb (l w) w) st).
Proof.
  intros cur l st. repeat split.
  - eexists. reflexivity.
  - exists (fun s => s). split; [symmetry; apply upd_sym_idf; reflexivity|]. intros s. exists (sy_doms s). destruct s; reflexivity.
Qed.
Lemma doms_only_calm : forall cur st st', doms_only cur st st' -> calm st st'.
Proof.
  intros cur st st' (A1 & A2 & A3 & A4 & (w & A5) & _). unfold calm. rewrite A1, A2, A3, A5. repeat split. apply ms_same.
Qed.

Lemma sym_count_upd : forall n f d, sym_count (upd_sym n f d) = sym_count d.
Proof. intros. apply upd_sym_names. Qed.

Lemma set_domains_step : forall ids h base G cur i res st go res' st', winv h base G st ->
  set_domains cur ids i res st = Done (go, res', st') -> winv h base G st' /\ doms_only cur st st'.
Proof.
  induction ids as [| id ids IH]; intros h base G cur i res st go res' st' W H; cbn [set_domains] in H.
  - injection H as <- <- <-. split; [exact W|apply doms_only_refl].
  - assert (PUT : forall v st1, winv h base G st1 -> doms_only cur st st1 -> 0 <= v <= sym_count (g_dic st1) ->
       let st2 := upd_dic (upd_sym cur (fun s => set_sy_doms (option_map (set_nth i v) (sy_doms s)) s)) st1 in
       winv h base G st2 /\ doms_only cur st st2).
    { intros v st1 W1 D1 V. split; [apply winv_put_dom; assumption|]. eapply doms_only_trans; [exact D1|]. apply doms_only_put. eauto. }
    assert (ERR : forall e, winv h base G (set_error e st) /\ doms_only cur st (set_error e st)).
    { intros e. split; [apply winv_set_error; exact W|apply doms_only_err]. }
    assert (Z0 : forall d, 0 <= 0 <= sym_count d). { intros d. unfold sym_count. pose proof (zlen_nonneg (d_names d)). lia. }
    assert (GO : forall st1 r1, winv h base G st1 -> doms_only cur st st1 -> set_domains cur ids (S i) r1 st1 = Done (go, res', st') ->
       winv h base G st' /\ doms_only cur st st').
    { intros st1 r1 W1 D1 H1. destruct (IH _ _ _ _ _ _ _ _ _ _ W1 H1) as [A B]. split; [exact A|]. eapply doms_only_trans; eassumption. }
    cbv zeta in H. destruct (str_eqb id (s2z "*")).
    { destruct (PUT 0 st W (doms_only_refl _ _) (Z0 _)) as [A B]. eapply GO; eassumption. }
    destruct (Z.leb_spec (sym_find (g_dic st) id) 0) as [L|L].
    { destruct (ERR ERR_UNKNOWNDOMAIN) as [A B]. destruct (PUT 0 _ A B (Z0 _)) as [A' B']. eapply GO; eassumption. }
    obind_inv H. pose proof (sym_find_range (g_dic st) id) as SR.
    destruct (PUT (sym_find (g_dic st) id) st W (doms_only_refl _ _) ltac:(lia)) as [A B].
    destruct x as [|t| |].
    + injection H as <- <- <-. apply ERR.
    + match type of H with set_domains _ _ _ _ ?X = _ => apply (GO X res) end; [| |exact H]; clear H.
      * destruct (_ && _); [exact A|]. apply winv_wrk; [exact A|]. repeat split.
      * destruct (_ && _); [exact B|]. eapply doms_only_trans; [exact B|apply doms_only_wrb].
    + eapply GO; eassumption.
    + destruct (ERR ERR_ALIASSETEXPECTED) as [A1 B1]. destruct (PUT 0 _ A1 B1 (Z0 _)) as [A' B']. eapply GO; eassumption.
Qed.

Lemma set_domain_step : forall h base G ids st r st', winv h base G st ->
  symbol_set_domain ids st = Done (r, st') -> winv h base G st' /\ calm st st'.
Proof.
  intros h base G ids st r st' W H. unfold symbol_set_domain, checked, refuse in H.
  destruct (mode_in (g_mode st) [fw_dom_raw; fw_dom_map; fw_dom_str]) eqn:M.
  2:{ injection H as <- <-. split; [apply winv_set_error; exact W|apply calm_set_error]. }
  destruct (w_cur (g_wrk st)) as [| n |]; [injection H as <- <-; split; [exact W|apply calm_refl]| |discriminate].
  destruct (get_sym (g_dic st) n) as [s|] eqn:GS; [|discriminate].
  destruct (length ids <? sy_dim s)%nat; [discriminate|]. cbv zeta in H. obind_inv H. destruct x as [[go res] st2].
  assert (W1 : winv h base G (upd_dic (upd_sym n (set_sy_doms (Some (repeat 0 (sy_dim s))))) st)).
  { apply winv_upd_sym; [exact W|intros; repeat split|]. intros s0 nn nd np E1 -> -> []. rewrite GS in E1. injection E1 as <-.
    constructor; auto. cbn. split; [apply repeat_length|]. apply Forall_forall. intros x I. apply repeat_spec in I. subst x. left. unfold int_ok, INT_MIN, INT_MAX. lia. }
  destruct (set_domains_step _ _ _ _ _ _ _ _ _ _ _ W1 E) as [W2 D2].
  assert (CA : calm st st2). { eapply calm_trans; [|eapply doms_only_calm; exact D2]. apply calm_dic. }
  destruct go; cbn [negb] in H.
  2:{ injection H as <- <-. auto. }
  injection H as <- <-.
  assert (MS : mode_step (g_mode st2) (match g_mode st2 with fw_dom_raw => fw_raw_data | fw_dom_map => fw_map_data | fw_dom_str => fw_str_data | m => m end)).
  { destruct (g_mode st2); constructor. }
  split; [apply winv_mode; assumption|]. eapply calm_trans; [exact CA|].
  repeat split. exact MS.
Qed.

Lemma set_domain_x_step : forall h base G n ids st r st', winv h base G st ->
  symbol_set_domain_x n ids st = Done (r, st') -> winv h base G st' /\ calm st st'.
Proof.
  intros h base G n ids st r st' W H. unfold symbol_set_domain_x in H. cbv zeta in H.
  destruct (negb (d_nn (g_dic st))); [discriminate|].
  destruct (negb _); [unfold fail_with in H; injection H as <- <-; split; [apply winv_set_error; exact W|apply calm_set_error]|].
  destruct (get_sym (g_dic st) n) as [s|] eqn:GS; [|discriminate].
  destruct (Nat.eqb (sy_dim s) 0); [injection H as <- <-; split; [exact W|apply calm_refl]|].
  destruct (_ || _) eqn:LL; [discriminate|]. apply Bool.orb_false_iff in LL. destruct LL as [LL _]. apply Nat.ltb_ge in LL.
  destruct (dom_strings (firstn (sy_dim s) ids) (d_dstrs (g_dic st))) as [ns l] eqn:DS.
  destruct (dom_strings_spec _ _ _ _ DS) as (A & (t & -> & T) & B). injection H as <- <-.
  split; [|apply calm_dic]. destruct G as [R c]. pose proof (proj1 W) as C.
  apply (winv_dic z h base (mkG R c) R); [exact W| | | |auto].
  - assert (I1 : dinv (zlen base) (set_d_dstrs (d_dstrs (g_dic st) ++ t) (g_dic st))).
    { apply dinv_dstrs; [apply (co_dic _ _ _ _ _ C)|]. apply Forall_app. split; [apply (di_dstrs _ _ (co_dic _ _ _ _ _ C))|exact T]. }
    apply dinv_upd_sym; [exact I1|]. intros s0 E []. constructor; auto. cbn in *.
    change (get_sym (g_dic st) n = Some s0) in E. rewrite GS in E. injection E as <-.
    split; [rewrite A, firstn_length; lia|]. eapply Forall_impl; [|exact B]. intros x X. right. exact X.
  - split; [destruct (upd_sym_fields n (set_sy_dstrs (Some ns)) (set_d_dstrs (d_dstrs (g_dic st) ++ t) (g_dic st))) as (E & _); unfold uel_count; rewrite E; cbn; lia|].
    apply (dic_grows_upd (set_d_dstrs (d_dstrs (g_dic st) ++ t) (g_dic st)) n). intros; repeat split.
  - cbn [gR]. apply Forall2_upd_sym; [apply (co_blk _ _ _ _ _ C)|]. intros [nm s0] o E1 E2 BB. eapply blk_same; [|exact BB]. repeat split.
Qed.

Lemma add_sym_winv : forall h base G name s st, winv h base G st -> text_ok name ->
  sym_wf (sym_count (g_dic st) + 1) (zlen (d_dstrs (g_dic st))) (zlen base) s ->
  winv h base (mkG (gR G ++ [None]) (gC G)) (upd_dic (fun d => set_d_names (d_names d ++ [(name, s)]) d) st).
Proof.
  intros h base G name s st W T S. pose proof (proj1 W) as C. apply winv_dic; [exact W| | | |].
  - apply dinv_add_sym; [apply (co_dic _ _ _ _ _ C)|exact T|exact S].
  - split; [unfold uel_count; cbn [d_uels set_d_names]; lia|]. intros n sy E. exists sy. split; [|repeat split]. unfold get_sym in *. cbn [d_names set_d_names].
    destruct (znth (d_names (g_dic st)) (n - 1)) as [e|] eqn:Q; [|discriminate]. rewrite znth_app_l by (apply znth_Some in Q; lia).
    rewrite Q. exact E.
  - cbn [d_names set_d_names]. apply Forall2_app; [apply (co_blk _ _ _ _ _ C)|]. constructor; [exact I|constructor].
  - intros i o E. rewrite znth_app_l by (apply znth_Some in E; lia). exact E.
Qed.

Lemma add_alias_step : forall h base G a b st r st', winv h base G st ->
  add_alias a b st = Done (r, st') ->
  calm st st' /\
  ((r = ret 0 /\ winv h base G st') \/ (r = ret 1 /\ winv h base (mkG (gR G ++ [None]) (gC G)) st')).
Proof.
  intros h base G a b st r st' W H. unfold add_alias, checked, refuse, fail_with in H. pose proof (proj1 W) as C.
  assert (ER : forall e, calm st (set_error e st) /\ ((ret 0 = ret 0 /\ winv h base G (set_error e st)) \/ (ret 0 = ret 1 /\ winv h base (mkG (gR G ++ [None]) (gC G)) (set_error e st)))).
  { intros e. split; [apply calm_set_error|]. left. split; [reflexivity|apply winv_set_error; exact W]. }
  destruct (mode_in (g_mode st) AnyWriteMode); [|injection H as <- <-; apply ER]. cbv zeta in H.
  destruct (negb _); [injection H as <- <-; apply ER|].
  match type of H with (let '(n, name) := ?X in _) = _ => destruct X as [n name] end.
  set (m := if n =? INT_MAX then 0 else n) in *. clearbody m.
  destruct (if m =? 0 then Some None else option_map Some (get_sym (g_dic st) m)) as [t|] eqn:TG; [|discriminate].
  match type of H with (if ?B then _ else _) = _ => destruct B; [injection H as <- <-; apply ER|] end.
  destruct (good_new_symbol name st) as [ok st1] eqn:GN.
  destruct (good_new_symbol_cases _ _ _ _ GN) as [(-> & -> & GI & _)|(-> & e & ->)]; cbn [negb] in H; [|injection H as <- <-; apply ER].
  obind_inv H. unfold okay in H. injection H as <- <-. split; [apply calm_dic|]. right. split; [reflexivity|].
  apply add_sym_winv; [exact W|apply ident_ok; exact GI|].
  pose proof (zlen_nonneg (d_names (g_dic st))) as NN. unfold sym_count in *.
  destruct t as [s|].
  - destruct (Z.eqb_spec m 0); [discriminate|]. destruct (get_sym (g_dic st) m) as [s1|] eqn:GS; [|discriminate]. cbn in TG. injection TG as <-.
    pose proof (get_sym_wf _ _ _ _ (co_dic _ _ _ _ _ C) GS) as [D1 _ _ _ _ _ _ _ _ _].
    unfold get_sym in GS. destruct (znth (d_names (g_dic st)) (m - 1)) as [en|] eqn:Q; [|discriminate]. pose proof (znth_Some _ _ _ Q) as QR.
    destruct (sym_name (g_dic st) m) as [nm|] eqn:SN; [|discriminate].
    assert (ok_nm : str_ok nm). { unfold sym_name in SN. rewrite Q in SN. cbn in SN. injection SN as <-. destruct (znth_Forall _ _ _ _ (di_names _ _ (co_dic _ _ _ _ _ C)) Q) as [[X _] _]. exact X. }
    pose proof (alias_text_ok _ _ E ok_nm).
    constructor; cbn; auto; try (unfold byte_ok, dt_alias, INT_MIN, i64_ok; lia).
    right. lia.
  - assert (m = 0) as ->. { destruct (Z.eqb_spec m 0); [assumption|]. destruct (get_sym (g_dic st) m); discriminate. }
    injection E as <-.
    constructor; cbn -[s2z]; auto; try (unfold byte_ok, dt_alias, INT_MIN, i64_ok; lia).
    + right. lia.
    + split; [apply forallb_Forall_char; reflexivity|]. unfold zlen. cbn. lia.
Qed.

Lemma add_comment_step : forall h base G n t st r st', winv h base G st -> str_ok t ->
  symbol_add_comment n t st = Done (r, st') -> winv h base G st' /\ calm st st'.
Proof.
  intros h base G n t st r st' W T H. unfold symbol_add_comment, checked, refuse, fail_with in H.
  destruct (mode_in (g_mode st) AnyWriteMode).
  2:{ injection H as <- <-. split; [apply winv_set_error; exact W|apply calm_set_error]. }
  obind_inv H. destruct x as [m|].
  - unfold okay in H. injection H as <- <-. split; [|apply calm_dic]. apply winv_upd_sym; [exact W|intros; repeat split|].
    intros s nn nd np E1 -> -> []. constructor; auto. cbn. apply Forall_app. split; [assumption|]. constructor; [|constructor]. apply cut255_ok. exact T.
  - injection H as <- <-. split; [apply winv_set_error; exact W|apply calm_set_error].
Qed.

Lemma winv_texts : forall h base G st l, winv h base G st -> Forall (fun e => text_ok (fst e)) l -> NoDup (List.map fst l) ->
  winv h base G (upd_dic (set_d_texts (Some l)) st).
Proof.
  intros h base G st l W F N. apply winv_dic_plain; [exact W| |reflexivity|unfold uel_count; cbn; lia].
  destruct (co_dic _ _ _ _ _ (proj1 W)). constructor; auto. cbn. eauto.
Qed.

Lemma NoDup_snoc_key : forall {T} (l : list (str * T)) s, NoDup (List.map fst l) -> sl_find false l s = None -> NoDup (List.map fst l ++ [s]).
Proof.
  intros T l s N F. eapply Permutation_NoDup; [apply Permutation_cons_append|]. constructor; [|exact N]. intros I.
  apply in_map_iff in I. destruct I as (e & E & I). apply In_nth_error in I. destruct I as [k I].
  unfold sl_find in F. rewrite sl_find_from_None in F. specialize (F (Z.of_nat k) e). unfold znth in F.
  destruct (Z.ltb_spec (Z.of_nat k) 0); [lia|]. rewrite Nat2Z.id in F. specialize (F I). rewrite E, same_text_refl in F. discriminate.
Qed.

Lemma add_set_text_step : forall h base G t st r st', winv h base G st -> str_ok t ->
  add_set_text t st = Done (r, st') -> winv h base G st' /\ calm st st'.
Proof.
  intros h base G t st r st' W T H. unfold add_set_text in H.
  destruct (di_texts _ _ (co_dic _ _ _ _ _ (proj1 W))) as (l & E & F & N). rewrite E in H.
  destruct (sl_add false l (make_good (cut255 t)) 0) as [l' n] eqn:A. injection H as <- <-. split; [|apply calm_dic].
  destruct (sl_add_cases _ _ _ _ _ _ A) as [[-> _]|(-> & SF & _)].
  - apply winv_texts; assumption.
  - apply winv_texts; [exact W| |].
    + apply Forall_app. split; [exact F|]. constructor; [|constructor]. apply make_cut_ok. exact T.
    + rewrite map_app. cbn [List.map fst]. apply NoDup_snoc_key; assumption.
Qed.

Lemma map_fst_zset : forall {A B} n (e : A * B) l b, znth l n = Some e -> List.map fst (zset n (fst e, b) l) = List.map fst l.
Proof.
  intros A B n e l b. unfold znth, zset. destruct (n <? 0); [discriminate|]. generalize (Z.to_nat n) as k.
  induction l as [|x l IH]; intros [|k]; cbn; intros E; try discriminate; [congruence|]. f_equal. auto.
Qed.

Lemma set_text_node_step : forall h base G n k st r st', winv h base G st ->
  set_text_node_nr n k st = Done (r, st') -> winv h base G st' /\ calm st st'.
Proof.
  intros h base G n k st r st' W H. unfold set_text_node_nr in H.
  destruct (di_texts _ _ (co_dic _ _ _ _ _ (proj1 W))) as (l & E & F & N). rewrite E in H.
  destruct (znth l n) as [[t v]|] eqn:Q; [|injection H as <- <-; split; [exact W|apply calm_refl]].
  destruct v; [|injection H as <- <-; split; [exact W|apply calm_refl]..].
  unfold okay in H. injection H as <- <-. split; [|apply calm_dic]. apply winv_texts; [exact W| |].
  - apply zset_Forall; [exact F|]. apply (znth_Forall _ _ _ _ F Q).
  - change (zset n (t, k) l) with (zset n (fst (t, 0), k) l). rewrite (map_fst_zset _ _ _ _ Q). exact N.
Qed.

(** *** Labels *)

Lemma idle_mode : forall h base R st m a, winv h base (mkG R GIdle) st ->
  (m = fw_init \/ (In m [f_raw_elem; f_map_elem; f_str_elem] /\ a = fw_init)) -> winv h base (mkG R GIdle) (set_g_mode m (set_g_aft a st)).
Proof.
  intros h base R st m a [C P] M. split.
  - eapply core_frame; [exact C|reflexivity..|apply (co_err _ _ _ _ _ C)].
  - unfold phase in *. cbn [gC] in *. destruct P as [_ P]. split; [exact M|exact P].
Qed.

Definition reg_modes : list gmode := [f_raw_elem; f_map_elem; f_str_elem].

Lemma register_start_step : forall h base G m st modes st' r, winv h base G st -> In m reg_modes ->
  modes = [fw_init] \/ modes = [fr_init; fw_init] ->
  checked modes st (okay (set_g_mode m (set_g_aft (after_reg st) st))) = Done (r, st') ->
  (r = ret 0 /\ winv h base G st' /\ calm st st' /\ g_mode st <> fw_init) \/
  (r = ret 1 /\ g_mode st = fw_init /\ gC G = GIdle /\ winv h base G st' /\ g_mode st' = m /\ g_aft st' = fw_init /\ g_env st' = g_env st).
Proof.
  intros h base G m st modes st' r W M MM H. unfold checked, refuse, okay in H.
  assert (MW := winv_write_mode _ _ _ _ W).
  destruct (mode_in (g_mode st) modes) eqn:E.
  - apply mode_in_true in E. assert (F : g_mode st = fw_init).
    { destruct MM as [-> | ->]; cbn in E; [intuition|]. destruct E as [E|E]; [|intuition]. rewrite <- E in MW. cbn in MW. intuition discriminate. }
    injection H as <- <-. right. split; [reflexivity|]. split; [exact F|]. pose proof (winv_fw_init _ _ _ _ _ W F) as GI. split; [exact GI|].
    assert (AR : after_reg st = fw_init) by (unfold after_reg; rewrite F; reflexivity). rewrite AR.
    split; [|auto]. destruct G as [R c]. cbn in GI. subst c. apply idle_mode; [exact W|]. right. split; [exact M|reflexivity].
  - injection H as <- <-. left. split; [reflexivity|]. split; [apply winv_set_error; exact W|]. split; [apply calm_set_error|].
    intros F. rewrite F in E. destruct MM as [-> | ->]; discriminate.
Qed.

Lemma register_done_step : forall h base G st st' r, winv h base G st -> register_done st = Done (r, st') ->
  (r = ret 0 /\ winv h base G st' /\ calm st st' /\ ~ In (g_mode st) reg_modes) \/
  (r = ret 1 /\ In (g_mode st) reg_modes /\ gC G = GIdle /\ winv h base G st' /\ g_mode st' = fw_init /\ g_env st' = g_env st).
Proof.
  intros h base G st st' r W H. unfold register_done, checked, refuse, okay in H.
  destruct (mode_in (g_mode st) [f_raw_elem; f_map_elem; f_str_elem]) eqn:E.
  - apply mode_in_true in E. injection H as <- <-. right. split; [reflexivity|]. split; [exact E|].
    destruct G as [R c]. assert (GI : c = GIdle /\ g_aft st = fw_init).
    { destruct W as [_ P]. unfold phase in P. cbn [gC] in P. destruct c as [|n o|n items].
      - destruct P as [[P|[_ P]] _]; [|auto]. rewrite P in E. cbn in E. intuition discriminate.
      - destruct P as [[P _] _]. cbn in P, E. intuition congruence.
      - destruct P as [[P _ _ _ _ _ _] _]. cbn in P, E. intuition congruence. }
    destruct GI as [-> A]. split; [reflexivity|]. rewrite A. split; [|auto].
    assert (EQ : set_g_mode fw_init st = set_g_mode fw_init (set_g_aft fw_init st)) by (destruct st; cbn in *; subst; reflexivity).
    rewrite EQ. apply idle_mode; [exact W|auto].
  - injection H as <- <-. left. split; [reflexivity|]. split; [apply winv_set_error; exact W|]. split; [apply calm_set_error|].
    intros F. apply mode_in_true in F. unfold reg_modes in F. congruence.
Qed.

Lemma register_raw_step : forall h base G s st st' r, winv h base G st -> str_ok s -> register_raw s st = Done (r, st') ->
  winv h base G st' /\ calm st st'.
Proof.
  intros h base G s st st' r W S H. unfold register_raw, checked, refuse, fail_with, okay in H.
  destruct (mode_in _ _).
  2:{ injection H as <- <-. split; [apply winv_set_error; exact W|apply calm_set_error]. }
  obind_inv H. destruct (trim_store_ok _ _ E S) as [-> T]. destruct (good_uel (trim_right s)) eqn:GU.
  2:{ injection H as <- <-. split; [apply winv_set_error; exact W|apply calm_set_error]. }
  injection H as <- <-. split; [|apply calm_dic]. destruct (uel_add (trim_right s) (g_dic st)) as [n d] eqn:UA.
  assert (X : upd_dic (fun d => snd (uel_add (trim_right s) d)) st = set_g_dic d st) by (unfold upd_dic, upd; rewrite UA; reflexivity).
  rewrite X. destruct (uel_add_spec _ _ _ _ UA) as (t & D & _). apply winv_dic_plain; [exact W| | |].
  - eapply dinv_uel_add; [apply (co_dic _ _ _ _ _ (proj1 W))|apply label_text; eassumption|exact UA].
  - subst d. reflexivity.
  - subst d. unfold uel_count. cbn [d_uels set_d_uels]. rewrite zlen_app. pose proof (zlen_nonneg t). lia.
Qed.

Lemma register_str_step : forall h base G s st st' r, winv h base G st -> str_ok s -> register_str s st = Done (r, st') ->
  winv h base G st' /\ calm st st'.
Proof.
  intros h base G s st st' r W S H. unfold register_str, checked, refuse, fail_with, okay in H.
  destruct (mode_in _ _).
  2:{ injection H as <- <-. split; [apply winv_set_error; exact W|apply calm_set_error]. }
  obind_inv H. destruct (trim_store_ok _ _ E S) as [-> T]. destruct (good_uel (trim_right s)) eqn:GU.
  2:{ injection H as <- <-. split; [apply winv_set_error; exact W|apply calm_set_error]. }
  obind_inv H. destruct x as [n d]. injection H as <- <-. split; [|apply calm_dic].
  destruct (dinv_add_usr_new _ _ _ _ _ (co_dic _ _ _ _ _ (proj1 W)) (label_text _ T GU) E0) as (A & B & C').
  apply winv_dic_plain; assumption.
Qed.

Lemma register_map_step : forall h base G k s st st' r, winv h base G st -> int_ok k -> str_ok s -> register_map k s st = Done (r, st') ->
  winv h base G st' /\ calm st st'.
Proof.
  intros h base G k s st st' r W K S H. unfold register_map, checked, refuse, fail_with, okay in H.
  obind_inv H. destruct (trim_store_ok _ _ E S) as [-> T]. destruct (mode_in _ _).
  2:{ injection H as <- <-. split; [apply winv_set_error; exact W|apply calm_set_error]. }
  destruct (good_uel (trim_right s)) eqn:GU.
  2:{ injection H as <- <-. split; [apply winv_set_error; exact W|apply calm_set_error]. }
  obind_inv H. destruct x as [n d].
  destruct (dinv_add_usr_indx _ _ _ _ _ _ (co_dic _ _ _ _ _ (proj1 W)) (label_text _ T GU) K E0) as (A & B & C').
  assert (W1 : winv h base G (set_g_dic d st)) by (apply winv_dic_plain; assumption).
  cbv zeta in H. destruct (0 <=? n); injection H as <- <-.
  - split; [exact W1|apply calm_dic].
  - split; [apply winv_set_error; exact W1|]. eapply calm_trans; [apply calm_dic|apply calm_set_error].
Qed.

Lemma rename_step : forall h base G o n st st' r, winv h base G st -> str_ok n -> rename_uel o n st = Done (r, st') ->
  winv h base G st' /\ calm st st'.
Proof.
  intros h base G o n st st' r W S H. unfold rename_uel in H. cbv zeta in H.
  destruct (negb (d_un (g_dic st))); [injection H as <- <-; split; [exact W|apply calm_refl]|].
  obind_inv H. destruct (trim_store_ok _ _ E S) as [-> T]. destruct (good_uel (trim_right n)) eqn:GU; cbn [negb] in H.
  2:{ injection H as <- <-. split; [exact W|apply calm_refl]. }
  obind_inv H. destruct (uel_find (g_dic st) x <? 0); [injection H as <- <-; split; [exact W|apply calm_refl]|].
  destruct (0 <=? uel_find (g_dic st) (trim_right n)); [injection H as <- <-; split; [exact W|apply calm_refl]|].
  destruct (znth _ _) as [e|] eqn:Q; [|discriminate]. injection H as <- <-. split; [|apply calm_dic].
  apply winv_dic_plain; [exact W| |reflexivity|].
  - destruct (co_dic _ _ _ _ _ (proj1 W)). constructor; auto; cbn.
    + apply zset_Forall; [assumption|]. cbn. apply label_text; assumption.
    + destruct di_usr as [U1 U2]. split; [exact U1|]. intros k. unfold uel_count in *. cbn [d_uels set_d_uels d_usr]. rewrite zset_length. apply U2.
  - unfold uel_count. cbn [d_uels set_d_uels]. rewrite zset_length. lia.
Qed.

(** *** Acronyms and settings *)

Lemma winv_acros : forall h base G st l, winv h base G st -> Forall acro_wf l -> winv h base G (upd_dic (set_d_acros l) st).
Proof.
  intros h base G st l W F. apply winv_dic_plain; [exact W| |reflexivity|unfold uel_count; cbn; lia].
  apply dinv_acros; [apply (co_dic _ _ _ _ _ (proj1 W))|exact F].
Qed.

Lemma acronym_add_step : forall h base G n t i st st' r, winv h base G st -> str_ok n -> str_ok t -> int_ok i ->
  acronym_add n t i st = Done (r, st') -> winv h base G st' /\ calm st st'.
Proof.
  intros h base G n t i st st' r W N T I H. unfold acronym_add in H. cbv zeta in H. destruct (negb _); [discriminate|].
  destruct (acro_check n i (d_acros (g_dic st)) 0); injection H as <- <-.
  - split; [|apply calm_dic]. apply winv_acros; [exact W|]. apply Forall_app.
    split; [apply (di_acros _ _ (co_dic _ _ _ _ _ (proj1 W)))|]. constructor; [|constructor]. split; [exact N|]. split; [apply make_good_ok; exact T|exact I].
  - split; [exact W|apply calm_refl].
  - split; [apply winv_set_error; exact W|apply calm_set_error].
Qed.

Lemma acronym_set_info_step : forall h base G k n t i st st' r, winv h base G st -> str_ok n -> str_ok t -> int_ok i ->
  acronym_set_info k n t i st = Done (r, st') -> winv h base G st' /\ calm st st'.
Proof.
  intros h base G k n t i st st' r W N T I H. unfold acronym_set_info in H. cbv zeta in H. destruct (negb _); [discriminate|].
  destruct (znth (d_acros (g_dic st)) (k - 1)) as [a|] eqn:Q; [|discriminate].
  pose proof (di_acros _ _ (co_dic _ _ _ _ _ (proj1 W))) as F. destruct (znth_Forall _ _ _ _ F Q) as (Q1 & Q2 & Q3).
  assert (ER : forall e st0, winv h base G st0 -> calm st st0 -> winv h base G (set_error e st0) /\ calm st (set_error e st0)).
  { intros e st0 W0 C0. split; [apply winv_set_error; exact W0|]. eapply calm_trans; [exact C0|apply calm_set_error]. }
  assert (PUT : forall b, acro_wf b -> winv h base G (upd_dic (fun d => set_d_acros (zset (k - 1) b (d_acros d)) d) st) /\
     calm st (upd_dic (fun d => set_d_acros (zset (k - 1) b (d_acros d)) d) st)).
  { intros b B. split; [|apply calm_dic]. apply (winv_acros h base G st (zset (k - 1) b (d_acros (g_dic st)))); [exact W|]. apply zset_Forall; assumption. }
  unfold okay, fail_with in H.
  destruct (mode_in (g_mode st) AnyWriteMode || ac_auto a).
  - destruct (good_new_symbol n st) as [ok st1] eqn:GN.
    destruct (good_new_symbol_cases _ _ _ _ GN) as [(-> & -> & _)|(-> & e & ->)]; cbn [negb] in H.
    + destruct (ac_auto a).
      * injection H as <- <-. apply PUT. split; [exact N|]. split; [apply make_good_ok; exact T|exact Q3].
      * destruct (i =? ac_map a); injection H as <- <-; [apply PUT; split; [exact N|]; split; [apply make_good_ok; exact T|exact Q3]|].
        apply ER; [exact W|apply calm_refl].
    + injection H as <- <-. apply ER; [apply winv_set_error; exact W|apply calm_set_error].
  - destruct (negb (ac_rmap a =? i)); [|injection H as <- <-; split; [exact W|apply calm_refl]].
    destruct (negb _); [injection H as <- <-; apply ER; [exact W|apply calm_refl]|].
    destruct (existsb _ _); injection H as <- <-; [apply ER; [exact W|apply calm_refl]|]. apply PUT. split; [exact Q1|]. split; [exact Q2|exact Q3].
Qed.

Lemma set_special_step : forall h base G vals st st' r, winv h base G st -> set_special vals st = Done (r, st') ->
  (r = ret 0 /\ winv h base G st' /\ calm st st') \/
  (r = ret 1 /\ winv h base G st' /\ e_tab (g_env st') = firstn 5 vals ++ skipn 5 (e_tab (g_env st)) /\ g_mode st' = g_mode st /\ g_aft st' = g_aft st /\ g_wrk st' = g_wrk st).
Proof.
  intros h base G vals st st' r W H. unfold set_special, fail_with, okay in H. destruct (length vals <? 5)%nat eqn:L; [discriminate|].
  apply Nat.ltb_ge in L. cbv zeta in H. destruct (has_dup (firstn 5 vals)).
  - injection H as <- <-. left. split; [reflexivity|]. split; [apply winv_set_error; exact W|apply calm_set_error].
  - remember (firstn 5 vals ++ skipn 5 (e_tab (g_env st))) as tab eqn:ET.
    assert (LT : zlen tab = 10).
    { pose proof (co_tab _ _ _ _ _ (proj1 W)) as T. unfold zlen in *. rewrite ET, app_length, firstn_length, skipn_length. lia. }
    injection H as <- <-. right. split; [reflexivity|]. split; [|repeat split]. apply winv_env; [exact W|]. exact LT.
Qed.

End Z.
