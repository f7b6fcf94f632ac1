(** * WriteSteps: every writing call keeps the invariant *)

From Coq Require Import String Sorted Permutation.
From Verif Require Import Base Prim Values Records LinkedData StrHash IntMap Strings AStream BufStream State StateTac
  FileImage ApiCore ApiFile ApiWrite ApiRead Api FileFacts BlockFacts StreamFacts OpenFacts DicInv WriteInv.
Open Scope Z_scope.
Open Scope list_scope.

Ltac obind_inv H :=
  lazymatch type of H with
  | obind ?m _ = Done _ =>
    let x := fresh "x" in let E := fresh "E" in
    destruct m as [x|] eqn:E; [|discriminate H]; cbn [obind] in H
  end.
Ltac done_inv H := injection H; clear H; intros; subst.

Section Z.
Context (z : zlib).
Notation winv := (winv z).

(** ** Frames *)

Definition wrk_same (w w' : wrk) : Prop :=
  w_cur w' = w_cur w /\ w_dim w' = w_dim w /\ w_dsize w' = w_dsize w /\ w_mms w' = w_mms w /\ w_last w' = w_last w /\
  w_cnt w' = w_cnt w /\ w_sort w' = w_sort w /\ w_lstr w' = w_lstr w.
Definition fil_same (f f' : fil) : Prop :=
  f_strm f' = f_strm f /\ f_nwp f' = f_nwp f /\ f_mip f' = f_mip f /\ f_compout f' = f_compout f /\ f_sysid f' = f_sysid f /\
  f_prod f' = f_prod f /\ f_compr f' = f_compr f.
Definition dic_grows (d d' : dic) : Prop :=
  uel_count d <= uel_count d' /\
  forall n sy, get_sym d n = Some sy -> exists sy', get_sym d' n = Some sy' /\ same_sym sy sy'.
(** The phases in which the domain can be set end with the first record. *)
Inductive mode_step : gmode -> gmode -> Prop :=
| ms_same : forall m, mode_step m m
| ms_raw : mode_step fw_dom_raw fw_raw_data
| ms_map : mode_step fw_dom_map fw_map_data
| ms_str : mode_step fw_dom_str fw_str_data.

Lemma dic_grows_refl : forall d, dic_grows d d.
Proof. intros d. split; [lia|]. intros n sy H. exists sy. split; [assumption|]. repeat split. Qed.

Lemma mm_ok_grow : forall d d' mm, dic_grows d d' -> mm_ok d mm -> mm_ok d' mm.
Proof. intros d d' mm [A _] [B C]. unfold mm_ok. lia. Qed.

Lemma winv_frame : forall h base G R' st st', winv h base G st ->
  mode_step (g_mode st) (g_mode st') -> g_aft st' = g_aft st ->
  fil_same (g_fil st) (g_fil st') -> wrk_same (g_wrk st) (g_wrk st') ->
  zlen (e_tab (g_env st')) = 10 -> 0 <= r_cnt (g_err st') ->
  dinv (zlen base) (g_dic st') -> dic_grows (g_dic st) (g_dic st') ->
  Forall2 (blk z (zlen (enc_head (z_host z) h) + 80) base) (d_names (g_dic st')) R' ->
  (forall i o, znth (gR G) i = Some o -> znth R' i = Some o) ->
  winv h base (mkG R' (gC G)) st'.
Proof.
  intros h base G R' st st' [C P] MS AF (F1 & F2 & F3 & F4 & F5 & F6 & F7) (W1 & W2 & W3 & W4 & W5 & W6 & W7 & W8) T N DI [GR1 GR2] B RR.
  split.
  - destruct C. constructor; cbn [gR]; rewrite ?F2, ?F3, ?F4, ?F5, ?F6, ?F7; auto.
  - unfold phase in *. cbn [gR gC]. destruct (gC G) as [|n o|n items].
    + destruct P as [M (s & E1 & E2)]. split; [|exists s; rewrite F1; auto]. rewrite AF.
      destruct MS; auto; destruct M as [M|[M _]]; try discriminate; cbn in M; intuition discriminate.
    + destruct P as [(M & sy & recs & [wc_cur0 wc_sym0 wc_dim0 wc_size0 wc_mms0 wc_pos0 wc_cnt0 wc_bits0 wc_last0 wc_out0] & X) Q]. split; [|apply RR; exact Q]. destruct (GR2 _ _ wc_sym0) as (sy' & E & SS). pose proof SS as [(S1 & S2 & S3 & S4 & S5) SB].
      split.
      { destruct MS; auto; cbn in M |- *; auto; destruct M as [M|[M|[]]]; discriminate. }
      exists sy', recs. split.
      * constructor; rewrite ?W1, ?W2, ?W3, ?W4, ?W5, ?W6, <- ?S1, <- ?S2, <- ?S3; auto.
        { eapply bits_are_same; eassumption. }
        destruct wc_out0 as (nrec & bs & s & O1 & O2 & O3). exists nrec, bs, s. rewrite F1, <- S5. auto.
      * intros r Er. destruct (X r Er) as [X1 X2]. split; [exact X1|]. unfold good_recs in *. rewrite W3, W4. exact X2.
    + destruct P as [[bp_mode0 bp_cur0 bp_sym0 bp_sort0 bp_items0 bp_mms0 bp_str0] Q]. split; [|apply RR; exact Q]. destruct bp_sym0 as (sy & s & B1 & B2 & B3 & B4 & B5 & B6 & B7 & B8).
      destruct (GR2 _ _ B1) as (sy' & E & SS). pose proof SS as [(S1 & S2 & S3 & S4 & S5) SB]. constructor.
      * destruct MS; auto; cbn in bp_mode0 |- *; intuition discriminate.
      * rewrite W1. exact bp_cur0.
      * pose proof (bits_are_same _ _ _ SS B8). exists sy', s. rewrite W2, W3, W4, F1, <- S2, <- S3, <- S5. auto 12.
      * rewrite W7. exact bp_sort0.
      * eapply Forall_impl; [|exact bp_items0]. unfold item_ok. rewrite W3, W4. auto.
      * rewrite W4. eapply Forall_impl; [|exact bp_mms0]. intros mm Hm. eapply mm_ok_grow; [split; eassumption|exact Hm].
      * rewrite W4, W5, W8. intros M. apply bp_str0. destruct MS; auto; cbn in M |- *; intuition discriminate.
Qed.

Ltac frame st :=
  match goal with W : WriteInv.winv _ ?h ?base ?G st |- WriteInv.winv _ ?h ?base ?G ?st' =>
    replace G with (mkG (gR G) (gC G)) by (destruct G; reflexivity);
    apply (winv_frame h base G (gR G) st st' W) end.

Lemma fil_same_refl : forall f, fil_same f f.
Proof. intros f. repeat split. Qed.
Lemma wrk_same_refl : forall f, wrk_same f f.
Proof. intros f. repeat split. Qed.
Hint Resolve fil_same_refl wrk_same_refl dic_grows_refl ms_same : frame.

Ltac fin C := first [exact (co_tab _ _ _ _ _ C) | exact (co_err _ _ _ _ _ C) | exact (co_dic _ _ _ _ _ C)
  | exact (co_blk _ _ _ _ _ C) | solve [auto with frame]].

(** Changing the dictionaries. *)
Lemma winv_dic : forall h base G R' st d', winv h base G st -> dinv (zlen base) d' -> dic_grows (g_dic st) d' ->
  Forall2 (blk z (zlen (enc_head (z_host z) h) + 80) base) (d_names d') R' ->
  (forall i o, znth (gR G) i = Some o -> znth R' i = Some o) ->
  winv h base (mkG R' (gC G)) (set_g_dic d' st).
Proof.
  intros h base G R' st d' W D GR B RR. pose proof (proj1 W) as C.
  eapply winv_frame; [exact W|auto with frame..|exact B|exact RR]; cbn; fin C.
Qed.

(** A change that leaves the symbol table alone. *)
Lemma winv_dic_plain : forall h base G st d', winv h base G st -> dinv (zlen base) d' -> d_names d' = d_names (g_dic st) ->
  uel_count (g_dic st) <= uel_count d' -> winv h base G (set_g_dic d' st).
Proof.
  intros h base G st d' W D N L. destruct G as [R c]. apply (winv_dic h base (mkG R c) R); auto.
  - split; [exact L|]. intros n sy. unfold get_sym. rewrite N. intros E. exists sy. split; [exact E|]. repeat split.
  - rewrite N. apply (co_blk _ _ _ _ _ (proj1 W)).
Qed.

Lemma Forall2_upd_sym : forall lo base d R n f, Forall2 (blk z lo base) (d_names d) R ->
  (forall e o, znth (d_names d) (n - 1) = Some e -> znth R (n - 1) = Some o -> blk z lo base e o -> blk z lo base (fst e, f (snd e)) o) ->
  Forall2 (blk z lo base) (d_names (upd_sym n f d)) R.
Proof.
  intros lo base d R n f F H. unfold upd_sym. destruct (znth (d_names d) (n - 1)) as [e|] eqn:E; [|assumption].
  cbn [d_names set_d_names]. destruct (znth_exists R (n - 1)) as (o & O).
  { apply znth_Some in E. apply Forall2_length in F. unfold zlen in *. lia. }
  eapply Forall2_zset; [exact F|exact O|]. apply H; auto. eapply Forall2_znth; eassumption.
Qed.

Lemma dic_grows_upd : forall d n f, (forall s, get_sym d n = Some s -> same_sym s (f s)) -> dic_grows d (upd_sym n f d).
Proof.
  intros d n f H. split.
  - destruct (upd_sym_fields n f d) as (E & _). unfold uel_count. rewrite E. lia.
  - intros m sy E. destruct (Z.eq_dec n m) as [->|N].
    + exists (f sy). split; [apply get_sym_upd_eq; exact E|auto].
    + exists sy. rewrite get_sym_upd_neq by assumption. split; [assumption|repeat split].
Qed.

Lemma winv_upd_sym : forall h base G st n f, winv h base G st ->
  (forall s, get_sym (g_dic st) n = Some s -> same_sym s (f s)) ->
  (forall s nn nd np, get_sym (g_dic st) n = Some s -> nn = sym_count (g_dic st) -> nd = zlen (d_dstrs (g_dic st)) ->
     sym_wf nn nd np s -> sym_wf nn nd np (f s)) ->
  winv h base G (upd_dic (upd_sym n f) st).
Proof.
  intros h base [R c] st n f W S H. apply (winv_dic h base (mkG R c) R); auto.
  - apply dinv_upd_sym; [apply (co_dic _ _ _ _ _ (proj1 W))|]. intros s E Q. eapply H; [exact E|reflexivity..|exact Q].
  - apply dic_grows_upd. exact S.
  - apply Forall2_upd_sym; [apply (co_blk _ _ _ _ _ (proj1 W))|]. intros [nm s] o E1 E2 B. cbn [fst snd].
    eapply blk_same; [|exact B]. apply S. unfold get_sym. rewrite E1. reflexivity.
Qed.

(** Options. *)
Lemma winv_env : forall h base G st f, winv h base G st -> zlen (e_tab (f (g_env st))) = 10 -> winv h base G (upd_env f st).
Proof.
  intros h base G st f W T. pose proof (proj1 W) as C. frame st; cbn; fin C.
Qed.

Lemma winv_mode : forall h base G st m, winv h base G st -> mode_step (g_mode st) m -> winv h base G (set_g_mode m st).
Proof.
  intros h base G st m W T. pose proof (proj1 W) as C. frame st; cbn; fin C.
Qed.

Lemma winv_wrk : forall h base G st f, winv h base G st -> wrk_same (g_wrk st) (f (g_wrk st)) -> winv h base G (upd_wrk f st).
Proof.
  intros h base G st f W T. pose proof (proj1 W) as C. frame st; cbn; fin C.
Qed.

Lemma mode_in_true : forall m l, mode_in m l = true <-> In m l.
Proof. intros m l. unfold mode_in. destruct (in_dec mode_eq_dec m l); split; auto; discriminate. Qed.

Lemma winv_enter : forall h base G st a b, winv h base G st -> mode_step a b -> winv h base G (enter a b st).
Proof.
  intros h base G st a b W T. unfold enter. destruct (mode_in (g_mode st) [a]) eqn:M; [|assumption].
  apply mode_in_true in M. destruct M as [M|[]]. apply winv_mode; [assumption|]. rewrite <- M. exact T.
Qed.

(** The idle phase and the mode. *)
Lemma winv_fw_init : forall h base G st, winv h base G st -> g_mode st = fw_init -> gC G = GIdle.
Proof.
  intros h base G st [_ P] M. unfold phase in P. destruct (gC G); [reflexivity| |].
  - destruct P as [[Q _] _]. rewrite M in Q. cbn in Q. intuition discriminate.
  - destruct P as [[Q _ _ _ _ _ _] _]. rewrite M in Q. cbn in Q. intuition discriminate.
Qed.

(** ** Starting a symbol *)

Lemma good_new_symbol_cases : forall name st ok st', good_new_symbol name st = (ok, st') ->
  (ok = true /\ st' = st /\ good_ident name = true /\ sym_find (g_dic st) name < 1 /\ acro_named name (d_acros (g_dic st)) < 0) \/
  (ok = false /\ exists n, st' = set_error n st).
Proof.
  intros name st ok st' H. unfold good_new_symbol in H. destruct (Z.leb_spec 1 (sym_find (g_dic st) name)).
  - injection H as <- <-. right. eauto.
  - destruct (Z.leb_spec 0 (acro_named name (d_acros (g_dic st)))).
    + injection H as <- <-. right. eauto.
    + destruct (good_ident name); injection H as <- <-; [left; auto|right; eauto].
Qed.

Definition new_sym (dim typ uinfo : Z) (text : str) (comp : bool) (bits : option (list Z)) : sym :=
  mkSym 0 (Z.to_nat dim) typ uinfo 0 0 false (make_good (assign_expl text)) comp false None None [] bits.

(** The state of the object right after a successful PrepareSymbolWrite. *)
Record prepared (h : fhead) (base : list Z) (R : list (option (list srec))) (n : Z) (st : gst) : Prop := mkPrep {
  pr_core : core z h base (R ++ [None]) st;
  pr_n : n = sym_count (g_dic st) /\ n = zlen R + 1;
  pr_cur : w_cur (g_wrk st) = CSym n;
  pr_sym : exists sy s, get_sym (g_dic st) n = Some sy /\ w_dim (g_wrk st) = sy_dim sy /\
             data_size (sy_type sy) = Some (w_dsize (g_wrk st)) /\
             f_strm (g_fil st) = Some s /\ on_base z base s /\ as_comp s = sy_comp sy /\ bits_are sy [];
  pr_mms : w_mms (g_wrk st) = repeat (INT_MAX, 0) (w_dim (g_wrk st));
  pr_last : w_last (g_wrk st) = repeat INDEX_INITIAL (w_dim (g_wrk st))
}.

Lemma idle_wrk : forall h base R st f, winv h base (mkG R GIdle) st -> winv h base (mkG R GIdle) (upd_wrk f st).
Proof.
  intros h base R st f [C P]. split.
  - eapply core_frame; [exact C|reflexivity..|apply (co_err _ _ _ _ _ C)].
  - exact P.
Qed.

Lemma znth_snoc : forall {A} (l : list A) a, znth (l ++ [a]) (zlen l) = Some a.
Proof.
  intros A l a. rewrite znth_app_r by lia. rewrite Z.sub_diag. reflexivity.
Qed.

Lemma prepare_cases : forall h base G name text dim typ uinfo st ok st',
  winv h base G st -> start_ok name text dim typ uinfo ->
  prepare_symbol_write z name text dim typ uinfo st = Done (ok, st') ->
  (ok = false /\ gC G = GIdle /\ winv h base G st') \/
  (ok = false /\ gC G <> GIdle /\ dead st') \/
  (ok = true /\ gC G = GIdle /\ prepared h base (gR G) (zlen (gR G) + 1) st').
Proof.
  intros h base G name text dim typ uinfo st ok st' W (A1 & A2 & A3 & A4 & A5) H.
  unfold prepare_symbol_write in H.
  set (st0 := upd_wrk (fun w => set_w_sort None (set_w_cur CNull w)) (upd_err (set_r_list None) st)) in *.
  destruct G as [R c]. cbn [gR gC].
  destruct c as [|n o|n items].
  2:{ right. left. assert (M : In (g_mode st) [fw_dom_raw; fw_raw_data]) by (destruct W as [_ [[M _] _]]; exact M).
      assert (MM : mode_in (g_mode st0) [fw_init] = false).
      { destruct (mode_in (g_mode st0) [fw_init]) eqn:Q; [|reflexivity]. apply mode_in_true in Q.
        change (g_mode st0) with (g_mode st) in Q. destruct Q as [Q|[]]. rewrite <- Q in M. cbn in M. intuition discriminate. }
      rewrite MM in H. cbn [negb] in H. injection H as <- <-. split; [reflexivity|]. split; [discriminate|].
      destruct (set_error_eq ERR_BADMODE st0) as (f & -> & _). split; [|split; reflexivity].
      change (g_mode (upd_err f st0)) with (g_mode st). unfold data_modes. cbn in M |- *. intuition. }
  2:{ right. left. assert (M : In (g_mode st) [fw_dom_map; fw_map_data; fw_dom_str; fw_str_data]) by (destruct W as [_ [[M _] _]]; exact M).
      assert (MM : mode_in (g_mode st0) [fw_init] = false).
      { destruct (mode_in (g_mode st0) [fw_init]) eqn:Q; [|reflexivity]. apply mode_in_true in Q.
        change (g_mode st0) with (g_mode st) in Q. destruct Q as [Q|[]]. rewrite <- Q in M. cbn in M. intuition discriminate. }
      rewrite MM in H. cbn [negb] in H. injection H as <- <-. split; [reflexivity|]. split; [discriminate|].
      destruct (set_error_eq ERR_BADMODE st0) as (f & -> & _). split; [|split; reflexivity].
      change (g_mode (upd_err f st0)) with (g_mode st). unfold data_modes. cbn in M |- *. intuition. }
  assert (W0 : winv h base (mkG R GIdle) st0).
  { apply idle_wrk. apply winv_err; [assumption|]. apply (co_err _ _ _ _ _ (proj1 W)). }
  destruct (mode_in (g_mode st0) [fw_init]); cbn [negb] in H.
  2:{ injection H as <- <-. left. split; [reflexivity|]. split; [reflexivity|]. apply winv_set_error. assumption. }
  destruct (good_new_symbol name st0) as [okn st1] eqn:GN.
  destruct (good_new_symbol_cases _ _ _ _ GN) as [(-> & -> & GI & _)|(-> & e & ->)]; cbn [negb] in H.
  2:{ injection H as <- <-. left. split; [reflexivity|]. split; [reflexivity|]. apply winv_set_error. assumption. }
  destruct ((0 <=? dim) && (dim <=? 20)) eqn:D; cbn [negb] in H.
  2:{ injection H as <- <-. left. split; [reflexivity|]. split; [reflexivity|]. apply winv_set_error. assumption. }
  destruct ((0 <=? typ) && (typ <=? dt_equ)) eqn:T; cbn [negb] in H.
  2:{ injection H as <- <-. left. split; [reflexivity|]. split; [reflexivity|]. apply winv_set_error. assumption. }
  right. right. cbv zeta in H.
  match type of H with context [upd_dic (fun d => set_d_names (d_names d ++ [(name, ?s)]) d) st0] => set (sy := s) in * end.
  obind_inv H. injection H as <- <-. split; [reflexivity|]. split; [reflexivity|].
  apply s_setcomp_inv in E. destruct E as (s & E1 & ->).
  destruct W0 as [C0 [M0 (s0 & S1 & S2)]]. cbn [gR] in C0.
  assert (s = s0). { cbn in E1, S1. congruence. } subst s0.
  assert (SC : sym_count (g_dic st0) = zlen R).
  { pose proof (Forall2_length _ _ _ (co_blk _ _ _ _ _ C0)) as L. unfold sym_count, zlen. rewrite L. reflexivity. }
  assert (DS : exists k, data_size typ = Some k).
  { unfold data_size. unfold dt_equ in T. repeat (match goal with |- context [typ =? ?q] => destruct (Z.eqb_spec typ q); [eauto|] end). lia. }
  destruct DS as [k DS].
  assert (SN : sym_count (set_d_names (d_names (g_dic st0) ++ [(name, sy)]) (g_dic st0)) = zlen R + 1).
  { unfold sym_count in *. cbn [d_names set_d_names]. rewrite zlen_app, SC. reflexivity. }
  constructor.
  - destruct C0. constructor; auto; cbn.
    + apply dinv_add_sym; [assumption|apply ident_ok; assumption|].
      constructor; cbn; auto.
      * lia.
      * unfold byte_ok, dt_equ in *. lia.
      * left. exact A5.
      * unfold INT_MIN. lia.
      * unfold INT_MIN. lia.
      * left. unfold i64_ok. lia.
      * apply expl_ok. exact A2.
    + apply Forall2_app; [assumption|]. constructor; [exact I|constructor].
  - split; [|reflexivity]. symmetry. exact SN.
  - cbn. unfold sym_count. cbn [d_names set_d_names]. rewrite zlen_app. unfold sym_count in SC. cbn in SC.
    f_equal. change (zlen [(name, sy)]) with 1. lia.
  - exists sy, (as_setcomp z (f_compout (g_fil st0) && (0 <? dim)) s). split.
    { cbn. unfold get_sym. cbn [d_names set_d_names]. replace (zlen R + 1 - 1) with (sym_count (g_dic st0)) by lia.
      unfold sym_count. change (d_names (g_dic st)) with (d_names (g_dic st0)). rewrite znth_snoc. reflexivity. }
    split; [reflexivity|]. split.
    { cbn. rewrite DS. reflexivity. }
    split; [reflexivity|]. split; [apply on_base_setcomp; assumption|]. split; [apply setcomp_comp|].
    intros b. unfold sy. cbn [sy_bits sy_type sy_dim]. destruct (Z.eqb_spec typ dt_set); [|discriminate]. destruct (Z.eqb_spec dim 1) as [->|]; [|discriminate].
    destruct (e_storedom (g_env st0)); [|discriminate]. intros X. injection X as <-. split; [auto|]. intros j. split; [intros []|intros [_ []]].
  - reflexivity.
  - reflexivity.
Qed.

(** InitDoWrite on a prepared symbol; [mms] are its bounds. *)
Lemma init_do_write_spec : forall h base R n sy s nrec st st',
  core z h base R st -> w_cur (g_wrk st) = CSym n -> get_sym (g_dic st) n = Some sy ->
  w_dim (g_wrk st) = sy_dim sy -> data_size (sy_type sy) = Some (w_dsize (g_wrk st)) ->
  length (w_mms (g_wrk st)) = sy_dim sy -> f_strm (g_fil st) = Some s -> on_base z base s -> as_comp s = sy_comp sy -> bits_are sy [] ->
  znth R (n - 1) = Some None ->
  init_do_write z nrec st = Done st' ->
  core z h base R st' /\ wcur z base n (set_sy_pos (zlen base) sy) [] st' /\
  g_mode st' = g_mode st /\ g_env st' = g_env st /\ g_err st' = g_err st /\
  g_dic st' = upd_sym n (set_sy_pos (zlen base)) (g_dic st) /\
  g_wrk st' = set_w_cnt 0 (set_w_last (repeat INDEX_INITIAL (w_dim (g_wrk st))) (g_wrk st)).
Proof.
  intros h base R n sy s nrec st st' C CU GS WD DS LM ST OB AC BI RN H.
  unfold init_do_write in H. cbv zeta in H. obind_inv H. apply s_setpos_inv in E. destruct E as (s1 & E1 & NN & ->).
  rewrite ST in E1. injection E1 as <-.
  set (st1 := s_log (as_setpos z (f_nwp (g_fil st)) s) (OSetPos (f_nwp (g_fil st))) st) in *.
  assert (CS : cur_sym st1 = Done (n, sy)).
  { unfold cur_sym, st1. cbn. rewrite CU, GS. reflexivity. }
  rewrite CS in H. cbn [obind] in H. apply s_write_inv in H. destruct H as (s2 & s3 & E2 & E3 & ->).
  cbn in E2. injection E2 as <-. rewrite (co_nwp _ _ _ _ _ C) in *.
  pose proof (setpos_writing z base s OB) as W1. rewrite AC in W1.
  match type of E3 with as_write ?b _ = _ => destruct (write_writing _ _ _ _ b W1) as (s4 & E4 & W2) end.
  rewrite E3 in E4. injection E4 as <-. cbn [app] in W2.
  assert (G1 : g_dic (s_log s3 (OWrite (enc_blockhead (z_host z) (w_dim (g_wrk (upd_dic (upd_sym n (set_sy_pos (zlen base))) st1))) nrec
       (w_mms (g_wrk (upd_dic (upd_sym n (set_sy_pos (zlen base))) st1)))))
       (upd_wrk (fun w => set_w_cnt 0 (set_w_last (repeat INDEX_INITIAL (w_dim w)) w))
          (upd_dic (upd_sym n (set_sy_pos (zlen base))) st1))) = upd_sym n (set_sy_pos (zlen base)) (g_dic st)) by reflexivity.
  split; [|split].
  - destruct C. constructor; auto.
    + rewrite G1. apply dinv_upd_sym; [assumption|]. intros sx _ []. constructor; auto. right. cbn. pose proof (zlen_nonneg base). lia.
    + rewrite G1. apply Forall2_upd_sym; [assumption|]. intros e o X1 X2 _. rewrite RN in X2. injection X2 as <-. exact I.
  - constructor; auto.
    + rewrite G1. apply get_sym_upd_eq. exact GS.
    + cbn. rewrite repeat_length. exact WD.
    + exists nrec, [], s3. split; [reflexivity|]. split.
      * cbn. rewrite <- WD. constructor.
      * rewrite app_nil_r. cbn in W2 |- *. rewrite WD in W2. exact W2.
  - repeat split.
Qed.


(** ** Writing one record *)

(** Only the error bookkeeping changed. *)
Definition err_only (st st' : gst) : Prop :=
  exists f, st' = upd_err f st /\ (0 <= r_cnt (g_err st) -> 0 <= r_cnt (f (g_err st))).

Lemma err_only_refl : forall st, err_only st st.
Proof. intros st. exists (fun e => e). split; [destruct st; reflexivity|auto]. Qed.
Lemma err_only_trans : forall a b c, err_only a b -> err_only b c -> err_only a c.
Proof.
  intros a b c (f & -> & F) (g & -> & G). exists (fun e => g (f e)). split; [reflexivity|]. intros H. apply G. apply F. exact H.
Qed.
Lemma err_only_set_error : forall n st, err_only st (set_error n st).
Proof. intros n st. destruct (set_error_eq n st) as (f & E & H). exists f. auto. Qed.
Lemma err_only_add_error : forall k v st, err_only st (add_error k v st).
Proof.
  intros k v st. eexists. split; [reflexivity|]. intros H. cbv beta.
  destruct (r_list (g_err st)) as [l|]; [destruct (11 <=? zlen l)|]; exact H.
Qed.
Lemma err_only_add_dom_error : forall k v st, err_only st (add_dom_error k v st).
Proof.
  intros k v st. eexists. split; [reflexivity|]. intros H. cbv beta.
  destruct (r_list (g_err st)) as [l|]; [|exact H]. destruct (11 <=? zlen l); [exact H|]. destruct (some_unseen k 0 l); exact H.
Qed.
Lemma err_only_eq : forall a b, err_only a b -> g_mode b = g_mode a /\ g_aft b = g_aft a /\ g_env b = g_env a /\ g_fil b = g_fil a /\
  g_dic b = g_dic a /\ g_wrk b = g_wrk a /\ g_sli b = g_sli a.
Proof. intros a b (f & -> & _). repeat split. Qed.
Lemma err_only_core : forall h base R a b, err_only a b -> core z h base R a -> core z h base R b.
Proof.
  intros h base R a b (f & -> & F) C. eapply core_frame; [exact C|reflexivity..|]. apply F. apply (co_err _ _ _ _ _ C).
Qed.
Lemma err_only_wcur : forall base n sy recs a b, err_only a b -> wcur z base n sy recs a -> wcur z base n sy recs b.
Proof. intros base n sy recs a b (f & -> & F) []. constructor; assumption. Qed.
Lemma err_only_winv : forall h base G a b, err_only a b -> winv h base G a -> winv h base G b.
Proof. intros h base G a b (f & -> & F) W. apply winv_err; [exact W|]. apply F. apply (co_err _ _ _ _ _ (proj1 W)). Qed.

(** The effect of an accepted record on symbol [n]. *)
Record wrote (n : Z) (sy' : sym) (acs : list acro) (last : list Z) (st st' : gst) : Prop := mkWr {
  wr_mode : g_mode st' = g_mode st;
  wr_aft : g_aft st' = g_aft st;
  wr_env : g_env st' = g_env st;
  wr_err : g_err st' = g_err st;
  wr_sli : g_sli st' = g_sli st;
  wr_wrk : g_wrk st' = set_w_last last (set_w_cnt (w_cnt (g_wrk st) + 1) (g_wrk st));
  wr_dic : g_dic st' = upd_sym n (fun _ => sy') (set_d_acros acs (g_dic st));
  wr_fil : exists s ops, g_fil st' = set_f_strm (Some s) (set_f_ops ops (g_fil st))
}.

(** The symbol after a record with the given first index and first value. *)
Definition sym_after (dim : nat) (k x : Z) (s : sym) : sym :=
  if (sy_type s =? dt_set) || (sy_type s =? dt_alias) then
    let s1 := if f_iszero x then s else set_sy_settext true s in
    match sy_bits s1 with
    | Some l => if Nat.eqb dim 1 then set_sy_bits (Some (if k <? 0 then l else k :: l)) s1 else s1
    | None => s1
    end
  else s.

Lemma sym_after_same : forall dim k x s, same_data s (sym_after dim k x s).
Proof.
  intros dim k x s. unfold sym_after. destruct ((sy_type s =? dt_set) || (sy_type s =? dt_alias)); [|repeat split].
  destruct (f_iszero x); [destruct (sy_bits s); [destruct (Nat.eqb dim 1)|]|cbn [sy_bits set_sy_settext]; destruct (sy_bits s); [destruct (Nat.eqb dim 1)|]];
  repeat split.
Qed.

Lemma sym_after_wf : forall nn nd np dim k x s, sym_wf nn nd np s -> sym_wf nn nd np (sym_after dim k x s).
Proof.
  intros nn nd np dim k x s []. unfold sym_after. destruct ((sy_type s =? dt_set) || (sy_type s =? dt_alias)); [|constructor; auto].
  destruct (f_iszero x); [destruct (sy_bits s); [destruct (Nat.eqb dim 1)|]|cbn [sy_bits set_sy_settext]; destruct (sy_bits s); [destruct (Nat.eqb dim 1)|]];
  constructor; auto.
Qed.

Lemma upd_sym_id : forall n d s, get_sym d n = Some s -> upd_sym n (fun _ => s) d = d.
Proof.
  intros n d s H. unfold get_sym, upd_sym in *. destruct (znth (d_names d) (n - 1)) as [[nm s0]|] eqn:E; [|reflexivity].
  cbn in H. injection H as ->. cbn [fst]. rewrite zset_same by exact E. destruct d; reflexivity.
Qed.

Lemma get_sym_acros : forall n d l, get_sym (set_d_acros l d) n = get_sym d n.
Proof. reflexivity. Qed.

(** *** Which records are accepted *)

(** The indices decide. *)
Lemma first_delta_done : forall keys last d x, length keys = length last -> first_delta keys last d = Done x ->
  match x with
  | None => keys = last
  | Some (i, delta) => delta <> 0 /\ (delta < 0 -> lex_lt keys last) /\ (0 <= delta -> lex_lt last keys)
  end.
Proof.
  induction keys as [| k keys IH]; intros [| l last] d x L H; cbn [first_delta] in H; try discriminate.
  - injection H as <-. reflexivity.
  - injection L as L. destruct (int_okb (k - l)); [|discriminate]. destruct (Z.eqb_spec (k - l) 0) as [E|E].
    + apply IH in H; [|exact L]. destruct x as [[i delta]|].
      * destruct H as (H1 & H2 & H3). split; [exact H1|]. cbn [lex_lt]. split; intros Q; right; (split; [lia|auto]).
      * f_equal; [lia|exact H].
    + injection H as <-. split; [exact E|]. cbn [lex_lt]. split; intros Q; left; lia.
Qed.

Lemma write_keys_done : forall bo dim mms last count keys r, length keys = length last ->
  write_keys bo dim mms last count keys = Done r ->
  match r with
  | WDup => keys = last /\ (1 <= dim)%nat /\ 1 <= count
  | WUnsorted => lex_lt keys last
  | WBytes _ last' => (keys = last /\ last' = last /\ (dim = 0%nat \/ count < 1)) \/ (lex_lt last keys /\ last' = keys)
  end.
Proof.
  intros bo dim mms last count keys r L H. unfold write_keys in H.
  destruct (first_delta keys last 0) as [x|] eqn:E; [|discriminate]. apply first_delta_done in E; [|exact L].
  destruct x as [[i delta]|].
  - destruct E as (E1 & E2 & E3). destruct (Z.ltb_spec delta 0).
    + injection H as <-. auto.
    + destruct (Nat.eqb (S i) dim && (delta <=? 255 - Z.of_nat dim - 1)).
      * injection H as <-. right. auto.
      * destruct (enc_elems bo (skipn i mms) (skipn i keys)); [|discriminate]. injection H as <-. right. auto.
  - destruct ((0 <? Z.of_nat dim) && (1 <=? count)) eqn:Q; injection H as <-.
    + split; [exact E|]. lia.
    + left. split; [exact E|]. split; [reflexivity|]. lia.
Qed.

Lemma sym_after_bits_eq : forall dim k x s, sy_bits (sym_after dim k x s) =
  if (sy_type s =? dt_set) || (sy_type s =? dt_alias) then option_map (fun l => if Nat.eqb dim 1 then (if k <? 0 then l else k :: l) else l) (sy_bits s) else sy_bits s.
Proof.
  intros dim k x s. unfold sym_after. destruct ((sy_type s =? dt_set) || (sy_type s =? dt_alias)); [|reflexivity]. cbv zeta.
  assert (E : sy_bits (if f_iszero x then s else set_sy_settext true s) = sy_bits s) by (destruct (f_iszero x); reflexivity). rewrite E.
  destruct (sy_bits s) as [l|] eqn:Q; cbn [option_map]; [destruct (Nat.eqb dim 1); [reflexivity|exact E]|exact E].
Qed.
Lemma sym_after_bits_are : forall dim ks x s keys, bits_are s keys -> length ks = dim -> sy_dim s = dim -> bits_are (sym_after dim (hd 0 ks) x s) (keys ++ [ks]).
Proof.
  intros dim ks x s keys B L D l H. destruct (sym_after_same dim (hd 0 ks) x s) as (_ & SD & ST & _). rewrite <- SD, <- ST.
  rewrite sym_after_bits_eq in H. destruct (sy_bits s) as [l0|] eqn:Q; [|destruct (_ || _); discriminate].
  destruct (B l0 Q) as [[X1 X2] X3]. split; [auto|]. rewrite X1 in H. cbn [Z.eqb orb option_map] in H. rewrite <- D, X2 in H. cbn in H. injection H as <-.
  rewrite <- D, X2 in L. destruct ks as [|k0 [|? ?]]; try discriminate. cbn [hd]. intros k. rewrite in_app_iff. cbn [In].
  destruct (Z.ltb_spec k0 0) as [N|N]; cbn [In]; rewrite X3.
  - split; [tauto|]. intros [A [Y|[Y|[]]]]; [tauto|]. injection Y as <-. lia.
  - split; [intros [<-|[A Y]]; auto|]. intros [A [Y|[Y|[]]]]; [right; auto|]. injection Y as <-. auto.
Qed.

(** What one call of DoWrite does. *)
Lemma do_write_cases : forall n sy keys vals st ok st',
  w_cur (g_wrk st) = CSym n -> get_sym (g_dic st) n = Some sy ->
  do_write z keys vals st = Done (ok, st') ->
  let ks := firstn (w_dim (g_wrk st)) keys in
  let vs := firstn (w_dsize (g_wrk st)) vals in
  (w_dim (g_wrk st) <= length keys)%nat /\ (w_dsize (g_wrk st) <= length vals)%nat /\
  ((ok = false /\ err_only st st' /\
    (any_violation (g_dic st) (w_wrb (g_wrk st)) ks = true \/
     write_keys (z_host z) (w_dim (g_wrk st)) (w_mms (g_wrk st)) (w_last (g_wrk st)) (w_cnt (g_wrk st)) ks = Done WDup \/
     write_keys (z_host z) (w_dim (g_wrk st)) (w_mms (g_wrk st)) (w_last (g_wrk st)) (w_cnt (g_wrk st)) ks = Done WUnsorted))
   \/
   (ok = true /\ any_violation (g_dic st) (w_wrb (g_wrk st)) ks = false /\
    exists b last acs, 
      write_keys (z_host z) (w_dim (g_wrk st)) (w_mms (g_wrk st)) (w_last (g_wrk st)) (w_cnt (g_wrk st)) ks = Done (WBytes b last) /\
      check_acros (List.map (classify (e_tab (g_env st))) vs) (d_acros (g_dic st)) = Done acs /\
      wrote n (sym_after (w_dim (g_wrk st)) (hd 0 last) (hd 0 vs) sy) acs last st st' /\
      exists s s', f_strm (g_fil st) = Some s /\ f_strm (g_fil st') = Some s' /\
        as_write (b ++ List.concat (List.map (enc_sval (z_host z)) (List.map (classify (e_tab (g_env st))) vs))) s = Some s')).
Proof.
  intros n sy keys vals st ok st' CU GS H ks vs. unfold do_write in H. cbv zeta in H. fold ks vs in H.
  destruct ((length keys <? w_dim (g_wrk st))%nat) eqn:L1; [discriminate|].
  destruct ((length vals <? w_dsize (g_wrk st))%nat) eqn:L2; [discriminate|]. cbn [orb] in H.
  apply Nat.ltb_ge in L1. apply Nat.ltb_ge in L2. split; [exact L1|]. split; [exact L2|].
  destruct (any_violation (g_dic st) (w_wrb (g_wrk st)) ks) eqn:V.
  { injection H as <- <-. left. split; [reflexivity|]. split; [|auto].
    eapply err_only_trans; [apply err_only_set_error|apply err_only_add_dom_error]. }
  destruct (write_keys (z_host z) (w_dim (g_wrk st)) (w_mms (g_wrk st)) (w_last (g_wrk st)) (w_cnt (g_wrk st)) ks) as [wk|] eqn:K; [|discriminate].
  cbn [obind] in H. destruct wk as [| |b last].
  { injection H as <- <-. left. split; [reflexivity|]. split; [|auto].
    eapply err_only_trans; [apply err_only_set_error|apply err_only_add_error]. }
  { injection H as <- <-. left. split; [reflexivity|]. split; [|auto].
    eapply err_only_trans; [apply err_only_set_error|apply err_only_add_error]. }
  right. set (svs := List.map (classify (e_tab (g_env st))) vs) in *.
  obind_inv H. apply s_write_inv in E. destruct E as (s & s' & E1 & E2 & ->).
  destruct (check_acros svs (d_acros (g_dic (s_log s' (OWrite (b ++ List.concat (List.map (enc_sval (z_host z)) svs))) st)))) as [acs|] eqn:CA; [|discriminate].
  cbn [obind] in H. change (check_acros svs (d_acros (g_dic st)) = Done acs) in CA.
  match type of H with context [cur_sym ?X] => set (st1 := X) in * end.
  assert (CS : cur_sym st1 = Done (n, sy)).
  { unfold cur_sym. change (w_cur (g_wrk st1)) with (w_cur (g_wrk st)). rewrite CU.
    change (get_sym (g_dic st1) n) with (get_sym (g_dic st) n). rewrite GS. reflexivity. }
  rewrite CS in H. cbn [obind] in H.
  assert (W0 : forall f, wrote n (f sy) acs last st (upd_dic (upd_sym n (fun _ => f sy)) st1)).
  { intros f. constructor; try reflexivity. exists s', (OWrite (b ++ List.concat (List.map (enc_sval (z_host z)) svs)) :: f_ops (g_fil st)). reflexivity. }
  assert (OUT : ok = true /\ wrote n (sym_after (w_dim (g_wrk st)) (hd 0 last) (hd 0 vs) sy) acs last st st' /\ f_strm (g_fil st') = Some s').
  { unfold sym_after. destruct ((sy_type sy =? dt_set) || (sy_type sy =? dt_alias)).
    - destruct vs as [| x vs']; [discriminate|]. cbn [hd]. set (s1 := if f_iszero x then sy else set_sy_settext true sy) in *.
      destruct (sy_bits s1) as [l|].
      + destruct (Nat.eqb (w_dim (g_wrk st)) 1).
        * unfold bits_add in H. destruct (hd 0 last <? 0); cbn [obind] in H.
          { injection H as <- <-. split; [reflexivity|]. split; [|reflexivity]. apply (W0 (fun _ => set_sy_bits (Some l) s1)). }
          destruct (hd 0 last >? INT_MAX - 8); cbn [obind] in H; [discriminate|].
          injection H as <- <-. split; [reflexivity|]. split; [|reflexivity]. apply (W0 (fun _ => set_sy_bits (Some (hd 0 last :: l)) s1)).
        * injection H as <- <-. split; [reflexivity|]. split; [|reflexivity]. apply (W0 (fun _ => s1)).
      + injection H as <- <-. split; [reflexivity|]. split; [|reflexivity]. apply (W0 (fun _ => s1)).
    - injection H as <- <-. split; [reflexivity|]. split; [|reflexivity].
      destruct (W0 (fun s => s)) as [A1 A2 A3 A4 A5 A6 A7 A8]. constructor; try reflexivity.
      + rewrite upd_sym_id by exact GS. reflexivity.
      + exact A8. }
  destruct OUT as (-> & O1 & O2). split; [reflexivity|]. split; [reflexivity|].
  exists b, last, acs. split; [reflexivity|]. split; [exact CA|]. split; [exact O1|].
  exists s, s'. auto.
Qed.

Lemma classify_all_ok : forall tab vs, zlen tab = 10 -> Forall u64_ok vs -> Forall sval_ok (List.map (classify tab) vs).
Proof. intros tab vs L F. induction F; cbn; constructor; auto. apply classify_ok; assumption. Qed.

Lemma do_write_inv : forall h base R n sy recs keys vals st ok st',
  core z h base R st -> wcur z base n sy recs st -> znth R (n - 1) = Some None ->
  do_write z keys vals st = Done (ok, st') ->
  let ks := firstn (w_dim (g_wrk st)) keys in
  let vs := firstn (w_dsize (g_wrk st)) vals in
  core z h base R st' /\
  ((ok = false /\ err_only st st') \/
   (ok = true /\ exists sy' acs last, wrote n sy' acs last st st' /\ same_data sy sy' /\
      wcur z base n sy' (recs ++ [(ks, List.map (classify (e_tab (g_env st))) vs)]) st')).
Proof.
  intros h base R n sy recs keys vals st ok st' C WC RN H ks vs.
  destruct WC as [W1 W2 W3 W4 W5 W6 W7 WB WL (nrec & bs & s & O1 & O2 & O3)].
  destruct (do_write_cases n sy keys vals st ok st' W1 W2 H) as (L1 & L2 & [(-> & E & _)|(-> & V & b & last & acs & K & CA & WR & s0 & s' & S1 & S2 & S3)]).
  { split; [eapply err_only_core; eassumption|left; auto]. }
  fold ks in K. fold vs in CA, WR, S3. set (sy' := sym_after (w_dim (g_wrk st)) (hd 0 last) (hd 0 vs) sy) in *.
  assert (SD : same_data sy sy') by apply sym_after_same.
  pose proof SD as (D1 & D2 & D3 & D4 & D5).
  assert (s0 = s) by congruence. subst s0.
  destruct (write_writing _ _ _ _ (b ++ List.concat (List.map (enc_sval (z_host z)) (List.map (classify (e_tab (g_env st))) vs))) O3) as (s1 & S4 & S5).
  rewrite S3 in S4. injection S4 as <-.
  destruct WR as [A1 A2 A3 A4 A5 A6 A7 (s2 & ops & A8)].
  split.
  - destruct C. constructor; rewrite ?A8, ?A3, ?A4; auto.
    + rewrite A7. apply dinv_upd_sym.
      * apply dinv_acros; [assumption|]. eapply check_acros_wf; [exact CA|]. apply (di_acros _ _ co_dic).
      * intros sx G Q. rewrite get_sym_acros in G. rewrite W2 in G. injection G as <-. apply sym_after_wf. exact Q.
    + rewrite A7. apply Forall2_upd_sym; [exact co_blk|]. intros e o X1 X2 _. rewrite RN in X2. injection X2 as <-. exact I.
  - right. split; [reflexivity|]. exists sy', acs, last. split; [constructor; eauto|]. split; [exact SD|].
    constructor; rewrite ?A6; cbn [w_cur w_dim w_dsize w_mms w_last w_cnt set_w_last set_w_cnt]; rewrite <- ?D1, <- ?D2, <- ?D3; auto.
    + rewrite A7. rewrite (get_sym_upd_eq _ _ _ sy); [reflexivity|exact W2].
    + rewrite W7, zlen_app. reflexivity.
    + assert (LK : last = ks).
      { apply write_keys_done in K; [|unfold ks; rewrite firstn_length; lia]. destruct K as [(K1 & K2 & _)|(_ & K2)]; congruence. }
      rewrite map_app. cbn [List.map fst]. subst last. unfold sy'. apply sym_after_bits_are; [exact WB|unfold ks; rewrite firstn_length; lia|congruence].
    + apply write_keys_done in K; [|unfold ks; rewrite firstn_length; lia]. destruct K as [(K1 & K2 & _)|(_ & K2)]; rewrite K2; [exact WL|]. unfold ks. rewrite firstn_length. lia.
    + exists nrec, (bs ++ b ++ List.concat (List.map (enc_sval (z_host z)) (List.map (classify (e_tab (g_env st))) vs))), s'.
      split; [exact S2|]. split.
      * eapply wr_snoc; [exact O2|]. rewrite <- W3, <- W7. exact K.
      * rewrite <- D5. rewrite <- app_assoc in S5. exact S5.
Qed.

(** ** Writing many records *)

(** What a run of records leaves alone: only the record counter, the last indices, the
    symbol's bit map and text flag, the acronyms and the stream change. *)
Definition wrote_sym (a b : sym) : Prop := exists t bits, b = set_sy_settext t (set_sy_bits bits a).
Record ran (n : Z) (sy sy' : sym) (st st' : gst) : Prop := mkRan {
  rn_mode : g_mode st' = g_mode st;
  rn_aft : g_aft st' = g_aft st;
  rn_env : g_env st' = g_env st;
  rn_sli : g_sli st' = g_sli st;
  rn_sym : wrote_sym sy sy';
  rn_wrk : exists last c, g_wrk st' = set_w_last last (set_w_cnt c (g_wrk st));
  rn_dic : exists acs, g_dic st' = upd_sym n (fun _ => sy') (set_d_acros acs (g_dic st));
  rn_fil : exists s ops, g_fil st' = set_f_strm s (set_f_ops ops (g_fil st))
}.

Lemma wrote_sym_refl : forall a, wrote_sym a a.
Proof. intros a. exists (sy_settext a), (sy_bits a). destruct a; reflexivity. Qed.
Lemma wrote_sym_trans : forall a b c, wrote_sym a b -> wrote_sym b c -> wrote_sym a c.
Proof. intros a b c (t & x & ->) (t' & x' & ->). exists t', x'. reflexivity. Qed.
Lemma wrote_sym_same : forall a b, wrote_sym a b -> same_data a b.
Proof. intros a b (t & x & ->). repeat split. Qed.
Lemma sym_after_wrote : forall dim k x s, wrote_sym s (sym_after dim k x s).
Proof.
  intros dim k x s. unfold sym_after. destruct ((sy_type s =? dt_set) || (sy_type s =? dt_alias)); [|apply wrote_sym_refl].
  destruct (f_iszero x); [destruct (sy_bits s) eqn:E; [destruct (Nat.eqb dim 1)|]|cbn [sy_bits set_sy_settext]; destruct (sy_bits s) eqn:E; [destruct (Nat.eqb dim 1)|]];
  try apply wrote_sym_refl;
  match goal with |- wrote_sym ?a ?b => exists (sy_settext b), (sy_bits b); destruct a; reflexivity end.
Qed.

Lemma upd_sym_twice : forall n a b x y d,
  upd_sym n (fun _ => a) (set_d_acros x (upd_sym n (fun _ => b) (set_d_acros y d))) = upd_sym n (fun _ => a) (set_d_acros x d).
Proof.
  intros n a b x y d. unfold upd_sym. cbn [d_names set_d_acros]. destruct (znth (d_names d) (n - 1)) as [e|] eqn:E.
  - cbn [d_names set_d_names set_d_acros]. rewrite znth_zset_eq by (eapply znth_Some; exact E). cbn [fst]. rewrite zset_zset. reflexivity.
  - cbn [d_names set_d_acros]. rewrite E. reflexivity.
Qed.

Lemma ran_refl : forall n sy st, get_sym (g_dic st) n = Some sy -> ran n sy sy st st.
Proof.
  intros n sy st G. constructor; auto.
  - apply wrote_sym_refl.
  - exists (w_last (g_wrk st)), (w_cnt (g_wrk st)). destruct (g_wrk st); reflexivity.
  - exists (d_acros (g_dic st)). rewrite upd_sym_id by exact G. destruct (g_dic st); reflexivity.
  - exists (f_strm (g_fil st)), (f_ops (g_fil st)). destruct (g_fil st); reflexivity.
Qed.

Lemma ran_trans : forall n a b c s1 s2 s3, ran n a b s1 s2 -> ran n b c s2 s3 -> ran n a c s1 s3.
Proof.
  intros n a b c s1 s2 s3 [A1 A2 A3 A4 A5 (l & k & A6) (acs & A7) (s & o & A8)] [B1 B2 B3 B4 B5 (l' & k' & B6) (acs' & B7) (s' & o' & B8)].
  constructor; try congruence.
  - eapply wrote_sym_trans; eassumption.
  - exists l', k'. rewrite B6, A6. reflexivity.
  - exists acs'. rewrite B7, A7. apply upd_sym_twice.
  - exists s', o'. rewrite B8, A8. reflexivity.
Qed.

Lemma err_only_ran : forall n sy st st', get_sym (g_dic st) n = Some sy -> err_only st st' -> ran n sy sy st st'.
Proof.
  intros n sy st st' G E. destruct (err_only_eq _ _ E) as (E1 & E2 & E3 & E4 & E5 & E6 & E7).
  destruct (ran_refl n sy st G). constructor; rewrite ?E1, ?E2, ?E3, ?E4, ?E5, ?E6, ?E7; auto.
Qed.

Lemma wrote_ran : forall n sy sy' acs last st st', get_sym (g_dic st) n = Some sy -> wrote_sym sy sy' ->
  wrote n sy' acs last st st' -> ran n sy sy' st st'.
Proof. intros n sy sy' acs last st st' G WS [A1 A2 A3 A4 A5 A6 A7 (s & o & A8)]. constructor; eauto. Qed.

(** DoWrite with everything known about it. *)
Lemma do_write_full : forall h base R n sy recs keys vals st ok st',
  core z h base R st -> wcur z base n sy recs st -> znth R (n - 1) = Some None ->
  do_write z keys vals st = Done (ok, st') ->
  let ks := firstn (w_dim (g_wrk st)) keys in
  let vs := firstn (w_dsize (g_wrk st)) vals in
  core z h base R st' /\ exists sy', ran n sy sy' st st' /\
  ((ok = false /\ err_only st st' /\ sy' = sy) \/
   (ok = true /\ g_err st' = g_err st /\ wcur z base n sy' (recs ++ [(ks, List.map (classify (e_tab (g_env st))) vs)]) st')).
Proof.
  intros h base R n sy recs keys vals st ok st' C WC RN H ks vs.
  destruct (do_write_inv h base R n sy recs keys vals st ok st' C WC RN H) as [C' [(-> & E)|(-> & sy1 & acs1 & last1 & _ & _ & W)]].
  { split; [exact C'|]. exists sy. split; [apply err_only_ran; [apply (wc_sym _ _ _ _ _ _ WC)|exact E]|]. left. auto. }
  split; [exact C'|].
  destruct (do_write_cases n sy keys vals st true st' (wc_cur _ _ _ _ _ _ WC) (wc_sym _ _ _ _ _ _ WC) H) as (L1 & L2 & [(X & _)|(_ & V & b & last & acs & K & CA & WR & _)]); [discriminate|].
  assert (RA : ran n sy (sym_after (w_dim (g_wrk st)) (hd 0 last) (hd 0 (firstn (w_dsize (g_wrk st)) vals)) sy) st st').
  { eapply wrote_ran; [apply (wc_sym _ _ _ _ _ _ WC)|apply sym_after_wrote|exact WR]. }
  assert (sy1 = sym_after (w_dim (g_wrk st)) (hd 0 last) (hd 0 (firstn (w_dsize (g_wrk st)) vals)) sy).
  { pose proof (wc_sym _ _ _ _ _ _ W) as G. destruct WR as [_ _ _ _ _ _ A7 _]. rewrite A7 in G.
    rewrite (get_sym_upd_eq _ _ _ sy) in G by (apply (wc_sym _ _ _ _ _ _ WC)). congruence. }
  subst sy1. eexists. split; [exact RA|]. right. split; [reflexivity|]. split; [apply (wr_err _ _ _ _ _ _ WR)|exact W].
Qed.

(** Any list of records: the block stays well formed. *)
Lemma write_all_inv : forall rs h base R n sy recs st st',
  core z h base R st -> wcur z base n sy recs st -> znth R (n - 1) = Some None ->
  write_all z rs st = Done st' ->
  Forall (fun it => Forall2 in_bounds (w_mms (g_wrk st)) (fst it) /\ length (snd it) = w_dsize (g_wrk st) /\ Forall u64_ok (snd it)) rs ->
  Forall (rec_ok (w_mms (g_wrk st)) (w_dsize (g_wrk st))) recs ->
  exists sy' recs', core z h base R st' /\ ran n sy sy' st st' /\ wcur z base n sy' recs' st' /\
    Forall (rec_ok (w_mms (g_wrk st)) (w_dsize (g_wrk st))) recs'.
Proof.
  induction rs as [| [k v] rs IH]; intros h base R n sy recs st st' C WC RN H F G; cbn [write_all] in H.
  - injection H as <-. exists sy, recs. split; [exact C|]. split; [apply ran_refl, (wc_sym _ _ _ _ _ _ WC)|]. auto.
  - destruct (do_write z k v st) as [[ok st1]|] eqn:DW; [|discriminate]. cbn [obind] in H.
    inversion F as [| ? ? (F1 & F2 & F3) F']; subst. cbn [fst snd] in *.
    destruct (do_write_full h base R n sy recs k v st ok st1 C WC RN DW) as (C1 & sy1 & RA & X).
    destruct (rn_wrk _ _ _ _ _ RA) as (last & c & EW).
    assert (EM : w_mms (g_wrk st1) = w_mms (g_wrk st)) by (rewrite EW; reflexivity).
    assert (ED : w_dsize (g_wrk st1) = w_dsize (g_wrk st)) by (rewrite EW; reflexivity).
    destruct X as [(-> & E & ->)|(-> & EE & W1)].
    + destruct (IH h base R n sy recs st1 st' C1 (err_only_wcur _ _ _ _ _ _ E WC) RN H) as (sy' & recs' & A1 & A2 & A3 & A4).
      { rewrite EM, ED. exact F'. }
      { rewrite EM, ED. exact G. }
      rewrite EM, ED in A4. exists sy', recs'. split; [exact A1|]. split; [eapply ran_trans; eassumption|]. auto.
    + destruct (IH h base R n sy1 _ st1 st' C1 W1 RN H) as (sy' & recs' & A1 & A2 & A3 & A4).
      { rewrite EM, ED. exact F'. }
      { rewrite EM, ED. apply Forall_app. split; [exact G|]. constructor; [|constructor].
        pose proof (Forall2_length _ _ _ F1) as L1. pose proof (wc_mms _ _ _ _ _ _ WC) as L2. pose proof (wc_dim _ _ _ _ _ _ WC) as L3.
        split; cbn [fst snd].
        - rewrite firstn_all2 by lia. exact F1.
        - rewrite firstn_all2 by lia. split; [rewrite map_length; exact F2|].
          apply classify_all_ok; [apply (co_tab _ _ _ _ _ C)|exact F3]. }
      rewrite EM, ED in A4. exists sy', recs'. split; [exact A1|]. split; [eapply ran_trans; eassumption|]. auto.
Qed.

(** *** The errors of refused records *)

(** The counters of ReportError, and the list of error records. *)
Definition raise (n : Z) (e : errs) : errs := mkErr (if r_last e =? 0 then n else r_last e) (r_cnt e + 1) (r_tot e + 1) (r_list e).
Definition note_error (keys vals : list Z) (e : errs) : errs :=
  match r_list e with
  | None => set_r_list (Some [(keys, vals)]) e
  | Some l => if 11 <=? zlen l then e else set_r_list (Some (l ++ [(keys, vals)])) e
  end.
Definition note_dom (keys vals : list Z) (e : errs) : errs :=
  match r_list e with
  | None => set_r_list (Some (if some_unseen keys 0 [] then [(keys, vals)] else [])) e
  | Some l => if 11 <=? zlen l then e else if some_unseen keys 0 l then set_r_list (Some (l ++ [(keys, vals)])) e else e
  end.

Lemma do_write_refused : forall keys vals st st', do_write z keys vals st = Done (false, st') ->
  let ks := firstn (w_dim (g_wrk st)) keys in
  let vs := firstn (w_dsize (g_wrk st)) vals in
  g_err st' = if any_violation (g_dic st) (w_wrb (g_wrk st)) ks then note_dom (negate_violating (g_dic st) (w_wrb (g_wrk st)) ks) vs (raise ERR_DOMAINVIOLATION (g_err st))
              else match write_keys (z_host z) (w_dim (g_wrk st)) (w_mms (g_wrk st)) (w_last (g_wrk st)) (w_cnt (g_wrk st)) ks with
                   | Done WDup => note_error ks vs (raise ERR_DATADUPLICATE (g_err st))
                   | _ => note_error ks vs (raise ERR_RAWNOTSORTED (g_err st))
                   end.
Proof.
  intros keys vals st st' H ks vs. unfold do_write in H. cbv zeta in H. fold ks vs in H.
  destruct ((length keys <? w_dim (g_wrk st))%nat || (length vals <? w_dsize (g_wrk st))%nat); [discriminate|].
  destruct (any_violation (g_dic st) (w_wrb (g_wrk st)) ks); [injection H as <-; reflexivity|].
  destruct (write_keys (z_host z) (w_dim (g_wrk st)) (w_mms (g_wrk st)) (w_last (g_wrk st)) (w_cnt (g_wrk st)) ks) as [wk|]; [|discriminate].
  cbn [obind] in H. destruct wk as [| |b last]; [injection H as <-; reflexivity..|].
  obind_inv H. obind_inv H. obind_inv H. destruct x1 as [n s].
  destruct ((sy_type s =? dt_set) || (sy_type s =? dt_alias)); [|discriminate]. destruct vs; [discriminate|].
  destruct (sy_bits _); [|discriminate]. destruct (Nat.eqb _ 1); [|discriminate]. obind_inv H. discriminate.
Qed.


(** The records of a sorted list that are stored: those that violate no domain and do
    not repeat the indices of the record stored before.  Without indices all are stored. *)
Fixpoint keep (d : dic) (wrb : list (option Z)) (prev : option (list Z)) (rs : list (list Z * list Z)) : list (list Z * list Z) :=
  match rs with
  | [] => []
  | (k, v) :: r =>
      if any_violation d wrb k then keep d wrb prev r
      else match prev, k with
           | Some p, _ :: _ => if list_eq_dec Z.eq_dec p k then keep d wrb prev r else (k, v) :: keep d wrb (Some k) r
           | _, _ => (k, v) :: keep d wrb (Some k) r
           end
  end.

(** The errors of the records that are not stored. *)
Fixpoint refused_errs (d : dic) (wrb : list (option Z)) (prev : option (list Z)) (rs : list (list Z * list Z)) (e : errs) : errs :=
  match rs with
  | [] => e
  | (k, v) :: r =>
      if any_violation d wrb k then refused_errs d wrb prev r (note_dom (negate_violating d wrb k) v (raise ERR_DOMAINVIOLATION e))
      else match prev, k with
           | Some p, _ :: _ => if list_eq_dec Z.eq_dec p k then refused_errs d wrb prev r (note_error k v (raise ERR_DATADUPLICATE e)) else refused_errs d wrb (Some k) r e
           | _, _ => refused_errs d wrb (Some k) r e
           end
  end.
(** What storing records does to the symbol. *)
Definition stored_sym (dim : nat) (recs : list (list Z * list Z)) (s : sym) : sym :=
  fold_left (fun s r => sym_after dim (hd 0 (fst r)) (hd 0 (snd r)) s) recs s.

Lemma any_violation_ext : forall d d' wrb ks, (forall n, In (Some n) wrb -> get_sym d' n = get_sym d n) ->
  any_violation d' wrb ks = any_violation d wrb ks.
Proof.
  intros d d'. induction wrb as [| wb wrb IH]; intros [| k ks] H; cbn [any_violation]; try reflexivity.
  rewrite IH by (intros n I; apply H; right; exact I). f_equal. unfold violates. destruct wb as [n|]; [|reflexivity].
  rewrite H by (left; reflexivity). reflexivity.
Qed.

Lemma keep_ext : forall d d' wrb rs prev, (forall n, In (Some n) wrb -> get_sym d' n = get_sym d n) ->
  keep d' wrb prev rs = keep d wrb prev rs.
Proof.
  intros d d' wrb. induction rs as [| [k v] rs IH]; intros prev H; cbn [keep]; [reflexivity|].
  rewrite (any_violation_ext d d' wrb k H). rewrite !IH by exact H. reflexivity.
Qed.

Lemma negate_violating_ext : forall d d' wrb ks, (forall n, In (Some n) wrb -> get_sym d' n = get_sym d n) ->
  negate_violating d' wrb ks = negate_violating d wrb ks.
Proof.
  intros d d'. induction wrb as [| wb wrb IH]; intros [| k ks] H; cbn [negate_violating]; try reflexivity.
  rewrite IH by (intros n I; apply H; right; exact I). f_equal. unfold violates. destruct wb as [n|]; [|reflexivity].
  rewrite H by (left; reflexivity). reflexivity.
Qed.
Lemma refuse_ext : forall d d' wrb rs prev e, (forall n, In (Some n) wrb -> get_sym d' n = get_sym d n) ->
  refused_errs d' wrb prev rs e = refused_errs d wrb prev rs e.
Proof.
  intros d d' wrb. induction rs as [| [k v] rs IH]; intros prev e H; cbn [refused_errs]; [reflexivity|].
  rewrite (any_violation_ext d d' wrb k H), (negate_violating_ext d d' wrb k H). rewrite !IH by exact H. reflexivity.
Qed.

Lemma ran_get_sym : forall n sy sy' st st' m, ran n sy sy' st st' -> m <> n -> get_sym (g_dic st') m = get_sym (g_dic st) m.
Proof. intros n sy sy' st st' m RA N. destruct (rn_dic _ _ _ _ _ RA) as (acs & ->). rewrite get_sym_upd_neq by congruence. reflexivity. Qed.

Definition prev_key (recs : list srec) : option (list Z) :=
  match recs with [] => None | _ => Some (last_keys [] recs) end.

Lemma write_all_exact : forall rs h base R n sy recs st st',
  core z h base R st -> wcur z base n sy recs st -> znth R (n - 1) = Some None ->
  write_all z rs st = Done st' ->
  Forall (fun it => Forall2 in_bounds (w_mms (g_wrk st)) (fst it) /\ length (snd it) = w_dsize (g_wrk st) /\ Forall u64_ok (snd it)) rs ->
  Forall (fun mm => 0 <= fst mm) (w_mms (g_wrk st)) ->
  (forall p, prev_key recs = Some p -> w_last (g_wrk st) = p) ->
  (recs = [] -> w_last (g_wrk st) = repeat INDEX_INITIAL (w_dim (g_wrk st))) ->
  length (w_last (g_wrk st)) = w_dim (g_wrk st) ->
  StronglySorted (fun a b => lex_le (fst a) (fst b)) rs ->
  (forall p r, prev_key recs = Some p -> In r rs -> lex_le p (fst r)) ->
  ~ In (Some n) (w_wrb (g_wrk st)) ->
  exists sy', core z h base R st' /\ ran n sy sy' st st' /\
    wcur z base n sy' (recs ++ List.map (fun r => (fst r, List.map (classify (e_tab (g_env st))) (snd r)))
                               (keep (g_dic st) (w_wrb (g_wrk st)) (prev_key recs) rs)) st' /\
    sy' = stored_sym (w_dim (g_wrk st)) (keep (g_dic st) (w_wrb (g_wrk st)) (prev_key recs) rs) sy /\
    g_err st' = refused_errs (g_dic st) (w_wrb (g_wrk st)) (prev_key recs) rs (g_err st).
Proof.
  induction rs as [| [k v] rs IH]; intros h base R n sy recs st st' C WC RN H F M0 PK P0 LL S0 LE NS; cbn [write_all] in H.
  - injection H as <-. exists sy. split; [exact C|]. split; [apply ran_refl, (wc_sym _ _ _ _ _ _ WC)|]. cbn. rewrite app_nil_r. split; [exact WC|split; reflexivity].
  - destruct (do_write z k v st) as [[ok st1]|] eqn:DW; [|discriminate]. cbn [obind] in H.
    inversion F as [| ? ? (F1 & F2 & F3) F']; subst. cbn [fst snd] in *. inversion S0 as [| ? ? S1 S2]; subst.
    pose proof (Forall2_length _ _ _ F1) as L1. pose proof (wc_mms _ _ _ _ _ _ WC) as L2. pose proof (wc_dim _ _ _ _ _ _ WC) as L3.
    assert (FK : firstn (w_dim (g_wrk st)) k = k) by (apply firstn_all2; lia).
    assert (FV : firstn (w_dsize (g_wrk st)) v = v) by (apply firstn_all2; lia).
    destruct (do_write_full h base R n sy recs k v st ok st1 C WC RN DW) as (C1 & sy1 & RA & X).
    destruct (do_write_cases n sy k v st ok st1 (wc_cur _ _ _ _ _ _ WC) (wc_sym _ _ _ _ _ _ WC) DW) as (_ & _ & Y).
    rewrite FK, FV in *.
    destruct (rn_wrk _ _ _ _ _ RA) as (last & c & EW).
    assert (EM : w_mms (g_wrk st1) = w_mms (g_wrk st)) by (rewrite EW; reflexivity).
    assert (ED : w_dsize (g_wrk st1) = w_dsize (g_wrk st)) by (rewrite EW; reflexivity).
    assert (EDm : w_dim (g_wrk st1) = w_dim (g_wrk st)) by (rewrite EW; reflexivity).
    assert (EB : w_wrb (g_wrk st1) = w_wrb (g_wrk st)) by (rewrite EW; reflexivity).
    assert (ET : g_env st1 = g_env st) by apply (rn_env _ _ _ _ _ RA).
    assert (EK : forall prev, keep (g_dic st1) (w_wrb (g_wrk st)) prev rs = keep (g_dic st) (w_wrb (g_wrk st)) prev rs).
    { intros prev. apply keep_ext. intros m I. eapply ran_get_sym; [exact RA|]. intros ->. contradiction. }
    assert (KP : Forall (fun x => 0 <= x) k).
    { clear - F1 M0. induction F1 as [| mm x mms ks B F IH]; constructor; inversion M0; subst; [unfold in_bounds in B; lia|auto]. }
    assert (EF : forall prev e, refused_errs (g_dic st1) (w_wrb (g_wrk st)) prev rs e = refused_errs (g_dic st) (w_wrb (g_wrk st)) prev rs e).
    { intros prev e. apply refuse_ext. intros m I. eapply ran_get_sym; [exact RA|]. intros ->. contradiction. }
    cbn [keep].
    destruct X as [(-> & E & ->)|(-> & EE & W1)].
    + (* refused *)
      pose proof (do_write_refused _ _ _ _ DW) as RF. cbv zeta in RF. rewrite FK, FV in RF.
      assert (KE : keep (g_dic st) (w_wrb (g_wrk st)) (prev_key recs) ((k, v) :: rs) = keep (g_dic st) (w_wrb (g_wrk st)) (prev_key recs) rs /\
                   refused_errs (g_dic st) (w_wrb (g_wrk st)) (prev_key recs) ((k, v) :: rs) (g_err st) = refused_errs (g_dic st) (w_wrb (g_wrk st)) (prev_key recs) rs (g_err st1)).
      { cbn [keep refused_errs]. rewrite RF. clear RF. destruct Y as [(_ & _ & Y)|(Y & _)]; [|discriminate].
        destruct (any_violation (g_dic st) (w_wrb (g_wrk st)) k) eqn:V; [split; reflexivity|].
        destruct Y as [Y|[Y|Y]]; [discriminate| |].
        - rewrite Y. apply write_keys_done in Y; [|lia]. destruct Y as (Y1 & Y2 & Y3). rewrite (wc_cnt _ _ _ _ _ _ WC) in Y3.
          destruct recs as [| r recs]; [cbn in Y3; lia|]. destruct k as [| k0 k']; [cbn in *; lia|].
          cbn [prev_key]. rewrite <- (PK _ eq_refl), <- Y1. destruct (list_eq_dec Z.eq_dec (k0 :: k') (k0 :: k')); [split; reflexivity|congruence].
        - apply write_keys_done in Y; [|lia]. exfalso. destruct recs as [| r recs].
          + rewrite (P0 eq_refl) in Y. assert (LK : length k = w_dim (g_wrk st)) by lia. rewrite <- LK in Y. clear - Y KP.
            induction k as [| x k IH]; [exact Y|]. inversion KP; subst. cbn [length repeat lex_lt] in Y. unfold INDEX_INITIAL in *. destruct Y as [Y|[Y Z]]; [lia|]. lia.
          + specialize (LE _ (k, v) eq_refl (or_introl eq_refl)). cbn [fst] in LE. rewrite (PK _ eq_refl) in Y.
            destruct LE as [LE|LE]; [rewrite LE in Y; eapply lex_lt_irrefl; exact Y|].
            eapply lex_lt_irrefl. eapply lex_lt_trans; eassumption. }
      change (if any_violation (g_dic st) (w_wrb (g_wrk st)) k then keep (g_dic st) (w_wrb (g_wrk st)) (prev_key recs) rs
              else match prev_key recs with
                   | Some p => match k with
                               | [] => (k, v) :: keep (g_dic st) (w_wrb (g_wrk st)) (Some k) rs
                               | _ :: _ => if list_eq_dec Z.eq_dec p k then keep (g_dic st) (w_wrb (g_wrk st)) (prev_key recs) rs
                                           else (k, v) :: keep (g_dic st) (w_wrb (g_wrk st)) (Some k) rs
                               end
                   | None => (k, v) :: keep (g_dic st) (w_wrb (g_wrk st)) (Some k) rs
                   end) with (keep (g_dic st) (w_wrb (g_wrk st)) (prev_key recs) ((k, v) :: rs)).
      destruct KE as [KE KF]. rewrite KE, KF. destruct (err_only_eq _ _ E) as (_ & _ & _ & _ & _ & EWk & _).
      destruct (IH h base R n sy recs st1 st' C1 (err_only_wcur _ _ _ _ _ _ E WC) RN H) as (sy' & A1 & A2 & A3 & A4 & A5); rewrite ?EWk; auto.
      { intros p r Q I. apply LE; [exact Q|right; exact I]. }
      rewrite EWk, ET, EK in A3. rewrite EWk, EK in A4. rewrite EWk, EF in A5. exists sy'. split; [exact A1|]. split; [eapply ran_trans; eassumption|]. auto.
    + (* accepted *)
      destruct Y as [(Y & _)|(_ & V & b & last' & acs & K & CA & WR & _)]; [discriminate|]. rewrite V.
      apply write_keys_done in K; [|lia].
      assert (EL : w_last (g_wrk st1) = last') by (rewrite (wr_wrk _ _ _ _ _ _ WR); reflexivity).
      assert (LK : last' = k).
      { destruct K as [(K1 & K2 & _)|(_ & K2)]; congruence. }
      assert (PN : forall x, prev_key (recs ++ [(k, x)]) = Some k).
      { intros x. unfold prev_key. destruct (recs ++ [(k, x)]) as [| r rr] eqn:Q; [destruct recs; discriminate|]. rewrite <- Q, last_keys_snoc. reflexivity. }
      assert (KE : match prev_key recs with
                   | Some p => match k with
                               | [] => (k, v) :: keep (g_dic st) (w_wrb (g_wrk st)) (Some k) rs
                               | _ :: _ => if list_eq_dec Z.eq_dec p k then keep (g_dic st) (w_wrb (g_wrk st)) (prev_key recs) rs
                                           else (k, v) :: keep (g_dic st) (w_wrb (g_wrk st)) (Some k) rs
                               end
                   | None => (k, v) :: keep (g_dic st) (w_wrb (g_wrk st)) (Some k) rs
                   end = (k, v) :: keep (g_dic st) (w_wrb (g_wrk st)) (Some k) rs /\
                   refused_errs (g_dic st) (w_wrb (g_wrk st)) (prev_key recs) ((k, v) :: rs) (g_err st) = refused_errs (g_dic st) (w_wrb (g_wrk st)) (Some k) rs (g_err st)).
      { cbn [refused_errs]. rewrite V. destruct (prev_key recs) as [p|] eqn:P; [|split; reflexivity]. destruct k as [| k0 k']; [split; reflexivity|].
        destruct (list_eq_dec Z.eq_dec p (k0 :: k')) as [->|]; [|split; reflexivity]. exfalso. pose proof (PK _ eq_refl) as PL.
        destruct K as [(K1 & K2 & [K3|K3])|(K1 & _)].
        - cbn in *; lia.
        - rewrite (wc_cnt _ _ _ _ _ _ WC) in K3. destruct recs; [discriminate|]. unfold zlen in K3. cbn [length] in K3. lia.
        - rewrite PL in K1. eapply lex_lt_irrefl. exact K1. }
      destruct KE as [KE KF]. rewrite KE, KF.
      destruct (IH h base R n sy1 _ st1 st' C1 W1 RN H) as (sy' & A1 & A2 & A3 & A4 & A5); rewrite ?EM, ?ED, ?EDm, ?EB; auto.
      { intros p Q. rewrite PN in Q. injection Q as <-. congruence. }
      { intros Q. destruct recs; discriminate. }
      { rewrite EL, LK. lia. }
      { intros p r Q I. rewrite PN in Q. injection Q as <-. rewrite Forall_forall in S2. apply (S2 _ I). }
      assert (ESY : sy1 = sym_after (w_dim (g_wrk st)) (hd 0 k) (hd 0 v) sy).
      { pose proof (wc_sym _ _ _ _ _ _ W1) as G. rewrite (wr_dic _ _ _ _ _ _ WR) in G. rewrite (get_sym_upd_eq _ _ _ sy) in G by (apply (wc_sym _ _ _ _ _ _ WC)). congruence. }
      rewrite EB, ET, EK, PN, <- app_assoc in A3. rewrite EB, EDm, EK, PN in A4. rewrite EB, EF, PN, EE in A5.
      exists sy'. split; [exact A1|]. split; [eapply ran_trans; eassumption|]. split; [exact A3|]. split; [|exact A5]. rewrite A4, ESY. reflexivity.
Qed.

(** ** Finishing a symbol (gxfile.cpp 517-531) *)

Definition finish (st : gst) : outcome gst :=
  do st <- s_write (enc_byte 255) st ;;
  do (p, st) <- s_getpos z st ;;
  let st := upd_fil (set_f_nwp p) st in
  do (n, s) <- cur_sym st ;;
  let st := upd_dic (upd_sym n (fun s => set_sy_count (w_cnt (g_wrk st)) (set_sy_errs (r_cnt (g_err st)) s))) st in
  let st := upd_err (set_r_cnt 0) st in
  let st := set_g_mode fw_init st in
  do st <- s_setcomp z false st ;;
  Done (upd_wrk (set_w_cur CNull) st).

Lemma write_done_raw : forall st, In (g_mode st) [fw_raw_data; fw_dom_raw] -> write_done z st = finish st.
Proof.
  intros st M. unfold write_done. assert (E : mode_in (g_mode st) [fw_raw_data; fw_dom_raw] = true) by (apply mode_in_true; exact M).
  rewrite E. reflexivity.
Qed.

Definition flush_items (st : gst) : outcome gst :=
  match w_sort (g_wrk st) with
  | None => UB
  | Some items =>
      do st <- init_do_write z (zlen items) st ;;
      do rs <- sorted_items (w_dim (g_wrk st)) items ;;
      do st <- write_all z rs st ;;
      Done (upd_wrk (fun w => set_w_sort None (set_w_rd (match items with [] => None | _ => Some [] end) w)) st)
  end.

Lemma write_done_buf : forall st, In (g_mode st) [fw_dom_map; fw_map_data; fw_dom_str; fw_str_data] ->
  write_done z st = do st <- flush_items st ;; finish st.
Proof.
  intros st M. unfold write_done. destruct (mode_in (g_mode st) [fw_raw_data; fw_dom_raw]) eqn:E; [|reflexivity].
  apply mode_in_true in E. cbn in M, E. intuition congruence.
Qed.

Definition done_sym (recs : list srec) (errs : Z) (s : sym) : sym := set_sy_count (zlen recs) (set_sy_errs errs s).

Lemma finish_spec : forall h base R n sy recs st st',
  core z h base R st -> wcur z base n sy recs st -> znth R (n - 1) = Some None ->
  finish st = Done st' ->
  exists t, core z h (base ++ t) R st' /\
    (good_recs st recs -> core z h (base ++ t) (zset (n - 1) (Some recs) R) st') /\
    idle z (base ++ t) st' /\ g_mode st' = fw_init /\ g_aft st' = g_aft st /\ g_env st' = g_env st /\ g_sli st' = g_sli st /\
    g_dic st' = upd_sym n (done_sym recs (r_cnt (g_err st))) (g_dic st) /\
    g_wrk st' = set_w_cur CNull (g_wrk st) /\ g_err st' = set_r_cnt 0 (g_err st).
Proof.
  intros h base R n sy recs st st' C [W1 W2 W3 W4 W5 W6 W7 WB WL (nrec & bs & s & O1 & O2 & O3)] RN H.
  unfold finish in H. obind_inv H. apply s_write_inv in E. destruct E as (s0 & s1 & E1 & E2 & ->).
  assert (s0 = s) by congruence. subst s0.
  destruct (write_writing _ _ _ _ (enc_byte 255) O3) as (s2 & E3 & O4). rewrite E2 in E3. injection E3 as <-.
  obind_inv H. destruct x as [p st2]. apply s_getpos_inv in E. destruct E as (s0 & s3 & E3 & E4 & ->).
  cbn in E3. injection E3 as <-.
  destruct (getpos_writing z _ _ _ _ O4) as (s4 & E5 & O5 & O6 & _). rewrite E4 in E5. injection E5 as -> ->.
  set (t := phys z (sy_comp sy) ((enc_blockhead (z_host z) (sy_dim sy) nrec (w_mms (g_wrk st)) ++ bs) ++ enc_byte 255)) in *.
  cbv zeta in H. match type of H with context [cur_sym ?X] => set (st2 := X) in * end.
  assert (CS : cur_sym st2 = Done (n, sy)).
  { unfold cur_sym. change (w_cur (g_wrk st2)) with (w_cur (g_wrk st)). rewrite W1.
    change (get_sym (g_dic st2) n) with (get_sym (g_dic st) n). rewrite W2. reflexivity. }
  rewrite CS in H. cbn [obind] in H.
  obind_inv H. apply s_setcomp_inv in E. destruct E as (s5 & E6 & ->). cbn in E6. injection E6 as <-.
  injection H as <-.
  match goal with |- exists t, core z h (base ++ t) R ?X /\ _ => set (st3 := X) in * end.
  assert (GD : g_dic st3 = upd_sym n (done_sym recs (r_cnt (g_err st))) (g_dic st)).
  { unfold st3. cbn. rewrite W7. reflexivity. }
  assert (DI : dinv (zlen (base ++ t)) (g_dic st3)).
  { rewrite GD. apply dinv_upd_sym.
    - eapply dinv_le; [|apply (co_dic _ _ _ _ _ C)]. rewrite zlen_app. pose proof (zlen_nonneg t). lia.
    - intros sx _ []. constructor; auto; cbn.
      + pose proof (zlen_nonneg recs). unfold INT_MIN. lia.
      + pose proof (co_err _ _ _ _ _ C). unfold INT_MIN. lia. }
  assert (OLD : Forall2 (blk z (zlen (enc_head (z_host z) h) + 80) (base ++ t)) (d_names (g_dic st)) R).
  { pose proof (co_blk _ _ _ _ _ C) as F. clear - F. induction F; constructor; auto. apply blk_app. assumption. }
  assert (HD : exists rest, base ++ t = enc_head (z_host z) h ++ rest /\ 80 <= zlen rest).
  { destruct (co_head _ _ _ _ _ C) as (rest & -> & L). exists (rest ++ t). rewrite <- app_assoc. split; [reflexivity|].
    rewrite zlen_app. pose proof (zlen_nonneg t). lia. }
  assert (LO : zlen (enc_head (z_host z) h) + 80 <= zlen base).
  { destruct (co_head _ _ _ _ _ C) as (rest & -> & L). rewrite zlen_app. lia. }
  exists t. split.
  { destruct C. constructor; auto.
    - rewrite GD. apply Forall2_upd_sym; [exact OLD|]. intros e o X1 X2 _. rewrite RN in X2. injection X2 as <-. exact I.
    - cbn. lia. }
  split.
  { intros [G1 G2]. destruct C. constructor; auto.
    - rewrite GD. unfold upd_sym. destruct (znth (d_names (g_dic st)) (n - 1)) as [e|] eqn:E.
      2:{ unfold get_sym in W2. rewrite E in W2. discriminate. }
      cbn [d_names set_d_names]. apply Forall2_zset2; [exact OLD|]. unfold get_sym in W2. rewrite E in W2. cbn in W2. injection W2 as W2.
      cbn [blk snd fst]. split.
      + exists (w_dsize (g_wrk st)), (w_mms (g_wrk st)), nrec, bs, (w_last (g_wrk st)). rewrite W2. cbn.
        split; [exact W4|]. split; [exact W5|]. split; [exact G1|]. split; [exact O2|]. split; [exact G2|]. split; [reflexivity|].
        rewrite W6. unfold t. rewrite <- app_assoc. pose proof (phys_at_end base (phys z (sy_comp sy) (enc_blockhead (z_host z) (sy_dim sy) nrec (w_mms (g_wrk st)) ++ bs ++ enc_byte 255)) []) as PE.
        rewrite app_nil_r in PE. exact PE.
      + rewrite W2. split; [change (zlen (enc_head (z_host z) h) + 80 <= sy_pos sy); lia|exact WB].
    - cbn. lia. }
  split.
  { split; [left; reflexivity|]. eexists. split; [reflexivity|]. apply on_base_setcomp. exact O5. }
  repeat (split; [reflexivity|]). split; [exact GD|]. split; reflexivity.
Qed.

(** The items of a mapped or string symbol. *)
Lemma Forall_perm : forall {A} (P : A -> Prop) l m, Permutation l m -> Forall P l -> Forall P m.
Proof. intros A P l m H F. rewrite Forall_forall in *. intros x I. apply F. eapply Permutation_in; [apply Permutation_sym; exact H|exact I]. Qed.

Lemma sorted_items_spec : forall dim items, Forall (fun r => length (fst r) = dim) items ->
  exists rs, sorted_items dim items = Done rs /\ stable_sort_of items rs.
Proof.
  intros dim items F. destruct (ld_build_spec dim items F) as (I1 & I2 & I3).
  destruct (ld_sort_stable _ I1) as (out & O1 & O2). exists out. unfold sorted_items.
  change (fold_left (fun d r => ld_add d (fst r) (snd r)) items (ld_new dim)) with (ld_build dim items).
  rewrite O1. split; [reflexivity|]. rewrite I2 in O2. exact O2.
Qed.

Lemma keep_Forall : forall (P : list Z * list Z -> Prop) d wrb rs prev, Forall P rs -> Forall P (keep d wrb prev rs).
Proof.
  intros P d wrb. induction rs as [| [k v] rs IH]; intros prev F; cbn [keep]; [constructor|]. inversion F; subst.
  destruct (any_violation d wrb k); [auto|]. destruct prev as [p|]; [|constructor; auto]. destruct k as [| k0 k]; [constructor; auto|].
  destruct (list_eq_dec Z.eq_dec p (k0 :: k)); [auto|constructor; auto].
Qed.

Lemma option_eq_dec : forall a b : option Z, {a = b} + {a <> b}.
Proof. decide equality. apply Z.eq_dec. Qed.

(** The records stored for the items [items]. *)
Definition stored_items (tab : list Z) (d : dic) (wrb : list (option Z)) (rs : list (list Z * list Z)) : list srec :=
  List.map (fun r => (fst r, List.map (classify tab) (snd r))) (keep d wrb None rs).

Lemma flush_items_spec : forall h base R n items st st',
  core z h base R st -> buf_phase z base n items st -> znth R (n - 1) = Some None ->
  flush_items st = Done st' ->
  exists sy sy' recs rs, get_sym (g_dic st) n = Some sy /\ core z h base R st' /\ wcur z base n sy' recs st' /\
    (uel_count (g_dic st) <= INT_MAX -> good_recs st' recs) /\
    stable_sort_of items rs /\
    (~ In (Some n) (w_wrb (g_wrk st)) -> recs = stored_items (e_tab (g_env st)) (g_dic st) (w_wrb (g_wrk st)) rs /\
       sy' = stored_sym (w_dim (g_wrk st)) (keep (g_dic st) (w_wrb (g_wrk st)) None rs) (set_sy_pos (zlen base) sy) /\
       g_err st' = refused_errs (g_dic st) (w_wrb (g_wrk st)) None rs (g_err st)) /\
    g_mode st' = g_mode st /\ g_aft st' = g_aft st /\ g_env st' = g_env st /\ g_sli st' = g_sli st /\
    wrote_sym (set_sy_pos (zlen base) sy) sy' /\
    (exists acs, g_dic st' = upd_sym n (fun _ => sy') (set_d_acros acs (g_dic st))).
Proof.
  intros h base R n items st st' C [B1 B2 (sy & s & B3 & B4 & B5 & B6 & B7 & B8 & B9 & BB) B10 B11 B12 B13] RN H.
  unfold flush_items in H. rewrite B10 in H. obind_inv H. rename x into st1.
  destruct (init_do_write_spec h base R n sy s (zlen items) st st1 C B2 B3 B4 B5 B6 B7 B8 B9 BB RN E) as (C1 & W1 & M1 & N1 & P1 & D1 & K1).
  assert (A1 : g_aft st1 = g_aft st /\ g_sli st1 = g_sli st /\ g_err st1 = g_err st).
  { unfold init_do_write in E. cbv zeta in E. obind_inv E. apply s_setpos_inv in E0. destruct E0 as (q & _ & _ & ->).
    obind_inv E. destruct x as [m sx]. apply s_write_inv in E. destruct E as (q2 & q3 & _ & _ & ->). repeat split; reflexivity. }
  destruct A1 as (A1 & A2 & AE).
  assert (LEN : Forall (fun r => length (fst r) = w_dim (g_wrk st)) items).
  { eapply Forall_impl; [|exact B11]. intros r (F1 & _). apply Forall2_length in F1. congruence. }
  destruct (sorted_items_spec _ _ LEN) as (rs & S1 & S2).
  assert (EDm : w_dim (g_wrk st1) = w_dim (g_wrk st)) by (rewrite K1; reflexivity).
  assert (EM : w_mms (g_wrk st1) = w_mms (g_wrk st)) by (rewrite K1; reflexivity).
  assert (ED : w_dsize (g_wrk st1) = w_dsize (g_wrk st)) by (rewrite K1; reflexivity).
  assert (EB : w_wrb (g_wrk st1) = w_wrb (g_wrk st)) by (rewrite K1; reflexivity).
  rewrite EDm, S1 in H. cbn [obind] in H. obind_inv H. rename x into st2. injection H as <-.
  assert (FI : Forall (fun it => Forall2 in_bounds (w_mms (g_wrk st1)) (fst it) /\ length (snd it) = w_dsize (g_wrk st1) /\ Forall u64_ok (snd it)) rs).
  { rewrite EM, ED. eapply Forall_perm; [apply S2|]. exact B11. }
  assert (BOK : uel_count (g_dic st) <= INT_MAX -> bounds_ok (w_mms (g_wrk st))).
  { intros U. eapply Forall_impl; [|exact B12]. intros mm [X1 X2]. split; [exact X1|lia]. }
  assert (ALL : exists sy' recs, core z h base R st2 /\ ran n (set_sy_pos (zlen base) sy) sy' st1 st2 /\ wcur z base n sy' recs st2 /\
    Forall (rec_ok (w_mms (g_wrk st)) (w_dsize (g_wrk st))) recs /\
    (~ In (Some n) (w_wrb (g_wrk st)) -> recs = stored_items (e_tab (g_env st)) (g_dic st) (w_wrb (g_wrk st)) rs /\
       sy' = stored_sym (w_dim (g_wrk st)) (keep (g_dic st) (w_wrb (g_wrk st)) None rs) (set_sy_pos (zlen base) sy) /\
       g_err st2 = refused_errs (g_dic st) (w_wrb (g_wrk st)) None rs (g_err st))).
  { destruct (in_dec (fun a b : option Z => option_eq_dec a b) (Some n) (w_wrb (g_wrk st))) as [IN|NS].
    - destruct (write_all_inv rs h base R n _ [] st1 st2 C1 W1 RN E0 FI (Forall_nil _)) as (sy' & recs & C2 & RA & W2 & GR).
      rewrite EM, ED in GR. exists sy', recs. split; [exact C2|]. split; [exact RA|]. split; [exact W2|]. split; [exact GR|]. contradiction.
    - assert (NS1 : ~ In (Some n) (w_wrb (g_wrk st1))) by (rewrite EB; exact NS).
      destruct (write_all_exact rs h base R n _ [] st1 st2 C1 W1 RN E0 FI) as (sy2 & C2 & RA & W3 & W4 & W5); auto.
      + rewrite EM. eapply Forall_impl; [|exact B12]. intros mm [X1 X2]. lia.
      + intros p Q. discriminate.
      + intros _. rewrite K1. reflexivity.
      + rewrite K1. apply repeat_length.
      + apply S2.
      + intros p r Q. discriminate.
      + cbn [app prev_key] in W3.
        assert (KE : keep (g_dic st1) (w_wrb (g_wrk st1)) None rs = keep (g_dic st) (w_wrb (g_wrk st)) None rs).
        { rewrite EB. apply keep_ext. intros m I. rewrite D1. apply get_sym_upd_neq. intros ->. contradiction. }
        assert (KF : refused_errs (g_dic st1) (w_wrb (g_wrk st1)) None rs (g_err st1) = refused_errs (g_dic st) (w_wrb (g_wrk st)) None rs (g_err st)).
        { rewrite EB, AE. apply refuse_ext. intros m I. rewrite D1. apply get_sym_upd_neq. intros ->. contradiction. }
        cbn [prev_key] in W4, W5. rewrite KE, EDm in W4. rewrite KF in W5.
        rewrite KE, N1 in W3. eexists sy2, _. split; [exact C2|]. split; [exact RA|]. split; [exact W3|]. split; [|intros _; split; [reflexivity|split; [exact W4|exact W5]]].
        apply Forall_map. apply keep_Forall. rewrite EM, ED in FI. eapply Forall_impl; [|exact FI]. intros r (X1 & X2 & X3).
        split; cbn [fst snd]; [exact X1|]. split; [rewrite map_length; exact X2|]. apply classify_all_ok; [apply (co_tab _ _ _ _ _ C)|exact X3]. }
  destruct ALL as (sy' & recs & C2 & RA & W2 & GR & EX).
  destruct (rn_wrk _ _ _ _ _ RA) as (last & c & RW).
  exists sy, sy', recs, rs. split; [exact B3|]. split.
  { eapply core_frame; [exact C2|reflexivity..|apply (co_err _ _ _ _ _ C2)]. }
  split.
  { destruct W2 as [X1 X2 X3 X4 X5 X6 X7 X8 X9 X10]. constructor; auto. }
  assert (EM2 : w_mms (g_wrk st2) = w_mms (g_wrk st)) by (rewrite RW; exact EM).
  assert (ED2 : w_dsize (g_wrk st2) = w_dsize (g_wrk st)) by (rewrite RW; exact ED).
  split.
  { intros U. unfold good_recs. change (bounds_ok (w_mms (g_wrk st2)) /\ Forall (rec_ok (w_mms (g_wrk st2)) (w_dsize (g_wrk st2))) recs).
    rewrite EM2, ED2. auto. }
  split; [exact S2|]. split; [exact EX|].
  destruct RA as [R1 R2 R3 R4 R5 _ (acs & R7) _].
  split; [change (g_mode st2 = g_mode st); congruence|]. split; [change (g_aft st2 = g_aft st); congruence|].
  split; [change (g_env st2 = g_env st); congruence|]. split; [change (g_sli st2 = g_sli st); congruence|].
  split; [exact R5|]. exists acs. change (g_dic st2 = upd_sym n (fun _ => sy') (set_d_acros acs (g_dic st))). rewrite R7, D1.
  unfold upd_sym. destruct (znth (d_names (g_dic st)) (n - 1)) as [e|] eqn:Q.
  - cbn [d_names set_d_names set_d_acros]. rewrite Q. rewrite znth_zset_eq by (eapply znth_Some; exact Q). cbn [fst]. rewrite zset_zset. reflexivity.
  - cbn [d_names set_d_acros]. rewrite Q. reflexivity.
Qed.

End Z.
