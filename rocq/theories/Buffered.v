(** * Buffered: symbols written with label texts or user numbers

    The records are collected, sorted and written when the symbol is finished.  Here, from
    the calls made in between to the records in the file. *)

From Coq Require Import String Sorted Permutation.
From Verif Require Import Base Prim Values Records LinkedData StrHash IntMap Strings AStream BufStream State StateTac
  FileImage ApiCore ApiFile ApiWrite ApiRead Api FileFacts BlockFacts StreamFacts OpenFacts DicInv WriteInv WriteSteps Journal WriteCalls WriteTrace
  Footprint SessInv FileFlow Sessions Vocab Reopen ReadFacts ReadRecs ReadLoops PropNames PropMeta Segment LabelFacts.
Open Scope Z_scope.
Open Scope list_scope.

Section Z.
Context (z : zlib).
Notation winv := (winv z).
Notation uels_grow := WriteCalls.uels_grow.

(** ** Other calls in between *)

Definition buf_modes : list gmode := [fw_dom_map; fw_map_data; fw_dom_str; fw_str_data].
Lemma buf_not_in : forall st l, In (g_mode st) buf_modes -> forallb (fun m => negb (mode_in m l)) buf_modes = true -> mode_in (g_mode st) l = false.
Proof.
  intros st l D F. rewrite forallb_forall in F. specialize (F _ D). destruct (mode_in (g_mode st) l); [discriminate|reflexivity].
Qed.
Lemma keep_wrk_err : forall e st, g_wrk (set_error e st) = g_wrk st.
Proof. intros e st. apply (set_error_fields e st). Qed.

(** Calls that neither hand over a record nor set a domain leave the records alone. *)
Definition bystander (c : call) : bool :=
  within c && match c with gdxDataWriteStr _ _ | gdxDataWriteMap _ _ | gdxSymbolSetDomain _ => false | _ => true end.

Lemma data_not_in : forall st l, In (g_mode st) data_modes -> forallb (fun m => negb (mode_in m l)) data_modes = true -> mode_in (g_mode st) l = false.
Proof.
  intros st l D F. rewrite forallb_forall in F. specialize (F _ D). destruct (mode_in (g_mode st) l); [discriminate|reflexivity].
Qed.
Definition is_raw (c : call) : bool := match c with gdxDataWriteRaw _ _ => true | _ => false end.
Lemma data_wrk : forall c st r st', In (g_mode st) data_modes -> keeps_writing c = true -> bystander c = true -> is_raw c = false -> exec z c st = Done (r, st') -> g_wrk st' = g_wrk st.
Proof.
  intros c st r st' D K B NR H. destruct (looks c) eqn:L.
  { assert (E : err_only st st') by (eapply looks_err_only; [exact L| |exact H]; cbn in D |- *; intuition). destruct (err_only_eq _ _ E) as (_ & _ & _ & _ & _ & X & _). exact X. }
  destruct c; try discriminate K; try discriminate L; try discriminate B; try discriminate NR; cbn [exec] in H.
  - unfold symbol_set_domain_x, okay, fail_with in H. cbv zeta in H. destruct (negb _); [discriminate|]. destruct (negb _); [injection H as <- <-; apply keep_wrk_err|].
    destruct (get_sym _ _) as [s|]; [|discriminate]. destruct (Nat.eqb _ _); [injection H as <- <-; reflexivity|]. destruct (_ || _); [discriminate|].
    destruct (dom_strings _ _) as [ns l]. injection H as <- <-. reflexivity.
  - unfold add_alias, checked, refuse, okay, fail_with in H. destruct (mode_in _ _); [|injection H as <- <-; apply keep_wrk_err]. cbv zeta in H.
    destruct (negb _); [injection H as <- <-; apply keep_wrk_err|].
    match type of H with (let '(n, name) := ?X in _) = _ => destruct X as [n name] end.
    match type of H with match ?X with _ => _ end = _ => destruct X as [t|]; [|discriminate] end.
    match type of H with (if ?B then _ else _) = _ => destruct B; [injection H as <- <-; apply keep_wrk_err|] end.
    destruct (good_new_symbol name st) as [ok st1] eqn:GN.
    destruct (good_new_symbol_cases _ _ _ _ GN) as [(-> & -> & GI & _)|(-> & e & ->)]; cbn [negb] in H; [|injection H as <- <-; apply keep_wrk_err].
    obind_inv H. injection H as <- <-. reflexivity.
  - unfold symbol_add_comment, checked, refuse, okay, fail_with in H. destruct (mode_in _ _); [|injection H as <- <-; apply keep_wrk_err].
    obind_inv H. destruct x; injection H as <- <-; [reflexivity|apply keep_wrk_err].
  - unfold add_set_text in H. destruct (d_texts _); [|injection H as <- <-; reflexivity]. destruct (sl_add _ _ _ _). injection H as <- <-. reflexivity.
  - unfold set_text_node_nr, okay in H. destruct (d_texts _); [|injection H as <- <-; reflexivity]. destruct (znth _ _) as [[t v]|]; [|injection H as <- <-; reflexivity].
    destruct v; injection H as <- <-; reflexivity.
  - unfold register_raw_start, checked, refuse in H. rewrite data_not_in in H by (exact D || reflexivity). injection H as <- <-. apply keep_wrk_err.
  - unfold register_raw, checked, refuse in H. rewrite data_not_in in H by (exact D || reflexivity). injection H as <- <-. apply keep_wrk_err.
  - unfold register_str_start, checked, refuse in H. rewrite data_not_in in H by (exact D || reflexivity). injection H as <- <-. apply keep_wrk_err.
  - unfold register_str, checked, refuse in H. rewrite data_not_in in H by (exact D || reflexivity). injection H as <- <-. apply keep_wrk_err.
  - unfold register_map_start, checked, refuse in H. rewrite data_not_in in H by (exact D || reflexivity). injection H as <- <-. apply keep_wrk_err.
  - unfold register_map, checked, refuse in H. obind_inv H. rewrite data_not_in in H by (exact D || reflexivity). injection H as <- <-. apply keep_wrk_err.
  - unfold register_done, checked, refuse in H. rewrite data_not_in in H by (exact D || reflexivity). injection H as <- <-. apply keep_wrk_err.
  - unfold rename_uel in H. cbv zeta in H. destruct (negb _); [injection H as <- <-; reflexivity|]. obind_inv H. destruct (negb _); [injection H as <- <-; reflexivity|].
    obind_inv H. destruct (_ <? 0); [injection H as <- <-; reflexivity|]. destruct (0 <=? _); [injection H as <- <-; reflexivity|]. destruct (znth _ _); [|discriminate].
    injection H as <- <-. reflexivity.
  - unfold acronym_add in H. cbv zeta in H. destruct (negb _); [discriminate|]. destruct (acro_check _ _ _ _); injection H as <- <-; [reflexivity|reflexivity|apply keep_wrk_err].
  - unfold acronym_set_info, okay, fail_with in H. cbv zeta in H. destruct (negb _); [discriminate|]. destruct (znth _ _) as [a|]; [|discriminate].
    destruct (_ || _).
    + destruct (good_new_symbol name st) as [ok st1] eqn:GN.
      destruct (good_new_symbol_cases _ _ _ _ GN) as [(-> & -> & _)|(-> & e & ->)]; cbn [negb] in H.
      * destruct (ac_auto a); [injection H as <- <-; reflexivity|]. destruct (_ =? _); injection H as <- <-; [reflexivity|apply keep_wrk_err].
      * injection H as <- <-. rewrite !keep_wrk_err. reflexivity.
    + destruct (negb _); [|injection H as <- <-; reflexivity]. destruct (negb _); [injection H as <- <-; apply keep_wrk_err|].
      destruct (existsb _ _); injection H as <- <-; [apply keep_wrk_err|reflexivity].
  - unfold acronym_next_nr in H. injection H as <- <-. destruct (0 <=? nv); reflexivity.
  - unfold set_read_special, okay in H. destruct (_ <? 5)%nat; [discriminate|]. injection H as <- <-. reflexivity.
  - injection H as <- <-. reflexivity.
  - injection H as <- <-. reflexivity.
  - injection H as <- <-. reflexivity.
Qed.
Lemma buf_wrk : forall c st r st', In (g_mode st) buf_modes -> keeps_writing c = true -> bystander c = true -> exec z c st = Done (r, st') -> g_wrk st' = g_wrk st.
Proof.
  intros c st r st' D K B H. destruct (is_raw c) eqn:R; [|eapply data_wrk; try eassumption; cbn in D |- *; intuition].
  destruct c; try discriminate R. cbn [exec] in H. unfold write_raw, enter in H. rewrite buf_not_in in H by (exact D || reflexivity). unfold checked, refuse in H.
  rewrite buf_not_in in H by (exact D || reflexivity). injection H as <- <-. apply keep_wrk_err.
Qed.

Lemma buf_mode_of : forall h base G n items st, winv h base G st -> gC G = GBuf n items -> In (g_mode st) buf_modes.
Proof. intros h base G n items st [_ P] E. unfold phase in P. rewrite E in P. destruct P as [[M _ _ _ _ _ _] _]. exact M. Qed.

Lemma buf_other : forall h base G n items c st r st', winv h base G st -> gC G = GBuf n items -> while_writing c -> within c = true ->
  match c with gdxDataWriteStr _ _ | gdxDataWriteMap _ _ => false | _ => true end = true -> exec z c st = Done (r, st') ->
  exists G', winv h base G' st' /\ gC G' = GBuf n items /\ calm st st'.
Proof.
  intros h base G n items c st r st' W GC [K O] B NR H. pose proof (buf_mode_of _ _ _ _ _ _ W GC) as D.
  assert (CALM : winv h base G st' /\ calm st st' -> exists G', winv h base G' st' /\ gC G' = GBuf n items /\ calm st st').
  { intros [W' C]. eauto. }
  assert (ERR : forall e, st' = set_error e st -> exists G', winv h base G' st' /\ gC G' = GBuf n items /\ calm st st').
  { intros e ->. apply CALM. split; [apply winv_set_error; exact W|apply calm_set_error]. }
  destruct (looks c) eqn:LK.
  { assert (E : err_only st st'). { eapply looks_err_only; [exact LK|eapply winv_write_mode; exact W|exact H]. }
    apply CALM. split; [|apply err_only_calm; exact E]. eapply err_only_winv; eassumption. }
  destruct c; try discriminate K; try discriminate LK; try discriminate B; try discriminate NR; cbn [exec] in H; cbn [call_ok] in O.
  - unfold write_raw, enter in H. rewrite buf_not_in in H by (exact D || reflexivity). unfold checked, refuse in H.
    rewrite buf_not_in in H by (exact D || reflexivity). injection H as <- <-. eauto.
  - apply CALM. eapply set_domain_step; eassumption.
  - apply CALM. eapply set_domain_x_step; eassumption.
  - destruct (add_alias_step _ _ _ _ _ _ _ _ _ W H) as [C [[-> W']|[-> W']]].
    + apply CALM. split; assumption.
    + eexists. split; [exact W'|]. split; [exact GC|exact C].
  - apply CALM. destruct O. eapply add_comment_step; eassumption.
  - apply CALM. eapply add_set_text_step; eassumption.
  - apply CALM. eapply set_text_node_step; eassumption.
  - unfold register_raw_start, checked, refuse in H. rewrite buf_not_in in H by (exact D || reflexivity). injection H as <- <-. eauto.
  - apply CALM. eapply register_raw_step; eassumption.
  - unfold register_str_start, checked, refuse in H. rewrite buf_not_in in H by (exact D || reflexivity). injection H as <- <-. eauto.
  - apply CALM. eapply register_str_step; eassumption.
  - unfold register_map_start, checked, refuse in H. rewrite buf_not_in in H by (exact D || reflexivity). injection H as <- <-. eauto.
  - apply CALM. destruct O. eapply register_map_step; eassumption.
  - unfold register_done, checked, refuse in H. rewrite buf_not_in in H by (exact D || reflexivity). injection H as <- <-. eauto.
  - apply CALM. destruct O. eapply rename_step; eassumption.
  - apply CALM. destruct O as (O1 & O2 & O3). exact (acronym_add_step _ _ _ _ _ _ _ _ _ _ W O1 O2 O3 H).
  - apply CALM. destruct O as (O0 & O1 & O2 & O3). exact (acronym_set_info_step _ _ _ _ _ _ _ _ _ _ _ W O1 O2 O3 H).
  - apply CALM. unfold acronym_next_nr in H. injection H as <- <-. destruct (0 <=? nv); [|split; [exact W|apply calm_refl]].
    split; [|repeat split; apply ms_same]. apply winv_env; [exact W|]. apply (co_tab _ _ _ _ _ (proj1 W)).
  - apply CALM. unfold set_read_special, okay in H. destruct (_ <? 5)%nat; [discriminate|]. injection H as <- <-.
    split; [|repeat split; apply ms_same]. apply winv_env; [exact W|]. apply (co_tab _ _ _ _ _ (proj1 W)).
  - apply CALM. injection H as <- <-. split; [|repeat split; apply ms_same]. apply winv_env; [exact W|]. apply (co_tab _ _ _ _ _ (proj1 W)).
  - apply CALM. injection H as <- <-. split; [|repeat split; apply ms_same]. apply winv_env; [exact W|]. apply (co_tab _ _ _ _ _ (proj1 W)).
  - apply CALM. injection H as <- <-. split; [|repeat split; apply ms_same]. apply winv_env; [exact W|]. apply (co_tab _ _ _ _ _ (proj1 W)).
Qed.

(** ** The labels of string records *)

Definition found (d : dic) (t : str) (k : Z) : Prop := uel_find d t = k /\ 1 <= k.
Lemma found_iff : forall d t k, found d t k <-> sl_find true (d_uels d) t = Some (k - 1) /\ 1 <= k.
Proof.
  intros d t k. unfold found, uel_find. destruct (sl_find true (d_uels d) t) as [m|] eqn:E.
  - pose proof (sl_find_range _ _ _ _ E). split; intros [A B]; (split; [|lia]); [f_equal; lia|injection A as ->; lia].
  - split; intros [A B]; [lia|discriminate].
Qed.

Lemma found_step : forall c d d' t k, datom c d d' -> renames c = false -> labels_inv d -> found d t k -> found d' t k.
Proof.
  intros c d d' t k A R I F. apply found_iff in F. destruct F as [F B]. apply found_iff. split; [|exact B].
  pose proof (labels_step _ _ _ A I) as [D' _].
  destruct (uels_cases c d d' A) as [(E & _)|[(s & _ & _ & _ & _ & E & _)|[(n & e & s & o & w & (EC & _) & _)|[(en & n & m & e & _ & ZE & _ & _ & _ & _ & E & _)|(n & e & ZE & E & _)]]]].
  - rewrite E. exact F.
  - destruct (sl_find_Some _ _ _ _ F) as (e & E1 & E2). eapply sl_find_unique; [exact D'| |exact E2]. rewrite E, znth_app_l by (apply znth_Some in E1; lia). exact E1.
  - subst c. discriminate.
  - rewrite <- F. apply (sl_find_map true (fun x : Z => x)). rewrite E. apply zset_fst. exact ZE.
  - rewrite <- F. apply (sl_find_map true (fun x : Z => x)). rewrite E. apply zset_fst. exact ZE.
Qed.
Lemma found_during : forall cs a b t k, during z cs a b -> no_rename cs -> labels_inv (g_dic a) -> found (g_dic a) t k -> found (g_dic b) t k.
Proof.
  intros cs a b t k D N I F. eapply (during_dic z (fun d => labels_inv d /\ found d t k)); [|exact D|split; assumption].
  intros c d d' IN A [X Y]. split; [eapply labels_step; eassumption|]. eapply found_step; try eassumption. unfold no_rename in N. rewrite Forall_forall in N. apply N, IN.
Qed.

Lemma found_grow : forall d d' t k, labels_inv d' -> uels_grow d d' -> found d t k -> found d' t k.
Proof.
  intros d d' t k [D' _] (u & E & _) F. apply found_iff in F. destruct F as [F B]. apply found_iff. split; [|exact B].
  destruct (sl_find_Some _ _ _ _ F) as (e & E1 & E2). eapply sl_find_unique; [exact D'| |exact E2]. rewrite E. cbn [d_uels set_d_uels].
  rewrite znth_app_l by (apply znth_Some in E1; lia). exact E1.
Qed.

Definition cache_found (d : dic) (cs : list str) (ls : list Z) : Prop := Forall2 (fun c l => hd 0 c = 127 \/ found d c l) cs ls.
Lemma cache_grow : forall d d' cs ls, labels_inv d' -> uels_grow d d' -> cache_found d cs ls -> cache_found d' cs ls.
Proof.
  intros d d' cs ls I G F. unfold cache_found in *. eapply Forall2_weaken; [|exact F]. intros c l [H|H]; [left; exact H|right; eapply found_grow; eassumption].
Qed.

Lemma str_key_found : forall s c l mm d x, str_ok s -> str_key s c l mm d = Done x -> labels_inv d -> (hd 0 c = 127 \/ found d c l) ->
  match x with
  | None => True
  | Some (c', n, mm', d') => labels_inv d' /\ uels_grow d d' /\ found d' (trim_right s) n /\ (hd 0 c' = 127 \/ found d' c' n)
  end.
Proof.
  intros s c l mm d x S H I C. unfold str_key in H. obind_inv H. destruct (trim_store_ok _ _ E S) as [-> T].
  set (t := trim_right s) in *. destruct (negb (hd 0 c =? 127) && str_eqb t c) eqn:Q.
  - injection H as <-. apply Bool.andb_true_iff in Q. destruct Q as [Q1 Q2]. apply str_eqb_spec in Q2. destruct (Z.eqb_spec (hd 0 c) 127); [discriminate|].
    destruct C as [C|C]; [contradiction|]. rewrite Q2. split; [exact I|]. split; [apply uels_grow_refl|]. auto.
  - cbv zeta in H. assert (SHORT : forall n d', labels_inv d' -> found d' t n -> (if zlen t + 1 >? 64 then c else t) = t).
    { intros n d' [_ G'] F. apply found_iff in F. destruct F as [F _]. destruct (sl_find_Some _ _ _ _ F) as (e & E1 & E2).
      destruct (G' _ _ E1) as [G1 _]. assert (L : zlen (fst e) = zlen t).
      { unfold same_text in E2. apply str_eqb_spec in E2. apply (f_equal (@length Z)) in E2. rewrite !map_length in E2. unfold zlen. lia. }
      unfold good_uel in G1. apply Bool.andb_true_iff in G1. destruct G1 as [G1 _]. rewrite Z.ltb_lt in G1. destruct (Z.gtb_spec (zlen t + 1) 64); [lia|reflexivity]. }
    destruct (Z.eqb_spec (uel_find d t) (-1)) as [N|N].
    + destruct (good_uel t) eqn:GU; [|injection H as <-; auto]. destruct (uel_add t d) as [n d'] eqn:UA. injection H as <-.
      assert (NF : sl_find true (d_uels d) t = None).
      { unfold uel_find in N. destruct (sl_find true (d_uels d) t) as [m|] eqn:F; [|reflexivity]. apply sl_find_range in F. lia. }
      assert (UE : d' = set_d_uels (d_uels d ++ [(t, -1)]) d /\ n = uel_count d + 1).
      { unfold uel_add in UA. destruct (sl_add true (d_uels d) t (-1)) as [l' k] eqn:SA. injection UA as <- <-. destruct (sl_add_cases _ _ _ _ _ _ SA) as [[_ F]|(-> & _ & ->)]; [congruence|].
        split; reflexivity. }
      destruct UE as [-> ->].
      assert (I' : labels_inv (set_d_uels (d_uels d ++ [(t, -1)]) d)).
      { destruct I as [I1 I2]. split; cbn [d_uels set_d_uels]; [apply distinct_snoc; assumption|]. intros i e X. apply StrHash.znth_snoc in X.
        destruct X as [X|[_ ->]]; [eapply I2; exact X|]. cbn [fst]. split; [exact GU|apply trim_right_idem]. }
      assert (F' : found (set_d_uels (d_uels d ++ [(t, -1)]) d) t (uel_count d + 1)).
      { apply found_iff. split; [|unfold uel_count; pose proof (zlen_nonneg (d_uels d)); lia]. eapply sl_find_unique; [apply I'| |].
        - cbn [d_uels set_d_uels]. apply StrHash.znth_snoc. right. split; [unfold uel_count; lia|reflexivity].
        - cbn [fst]. apply same_text_refl. }
      split; [exact I'|]. split; [exists [(t, -1)]; split; [reflexivity|]; constructor; [split; [reflexivity|apply good_uel_spec; exact GU]|constructor]|].
      split; [exact F'|]. rewrite (SHORT _ _ I' F'). right. exact F'.
    + injection H as <-. assert (F : found d t (uel_find d t)).
      { split; [reflexivity|]. unfold uel_find in *. destruct (sl_find true (d_uels d) t) as [k|] eqn:F; [|congruence]. apply sl_find_range in F. lia. }
      split; [exact I|]. split; [apply uels_grow_refl|]. split; [exact F|]. rewrite (SHORT _ _ I F). right. exact F.
Qed.

Lemma str_loop_len : forall keys cs ls mms d y, str_loop keys cs ls mms d = Done y -> let '(b, (cs', ls', mms'), d') := y in length ls' = length ls.
Proof.
  induction keys as [|s keys IH]; intros cs ls mms d y H; cbn [str_loop] in H.
  - injection H as <-. reflexivity.
  - destruct cs as [|c cs]; [discriminate|]. destruct ls as [|l ls]; [discriminate|]. destruct mms as [|mm mms]; [discriminate|].
    obind_inv H. destruct x as [[[[c' n] mm'] d']|]; [|injection H as <-; reflexivity].
    obind_inv H. destruct x as [[b [[cs2 ls2] mms2]] d2]. injection H as <-. apply IH in E0. cbn. f_equal. exact E0.
Qed.

Lemma str_loop_found : forall keys cs ls mms d y, Forall str_ok keys -> str_loop keys cs ls mms d = Done y -> labels_inv d -> cache_found d cs ls ->
  let '(b, (cs', ls', mms'), d') := y in
  labels_inv d' /\ uels_grow d d' /\ cache_found d' cs' ls' /\
  (b = true -> length keys = length ls -> Forall2 (fun s k => found d' (trim_right s) k) keys ls').
Proof.
  induction keys as [|s keys IH]; intros cs ls mms d y K H I C; cbn [str_loop] in H.
  - injection H as <-. split; [exact I|]. split; [apply uels_grow_refl|]. split; [exact C|]. intros _ L. destruct ls; [constructor|discriminate].
  - inversion K as [|? ? K1 K2]; subst. destruct C as [|c l cs ls C1 C2]; [discriminate|]. destruct mms as [|mm mms]; [discriminate|].
    obind_inv H. pose proof (str_key_found _ _ _ _ _ _ K1 E I C1) as SK. destruct x as [[[[c' n] mm'] d']|].
    + destruct SK as (S1 & S2 & S3 & S4). obind_inv H. destruct x as [[b [[cs2 ls2] mms2]] d2]. injection H as <-.
      pose proof (IH _ _ _ _ _ K2 E0 S1 (cache_grow _ _ _ _ S1 S2 C2)) as X. cbv beta iota in X. destruct X as (X1 & X2 & X3 & X4).
      split; [exact X1|]. split; [eapply uels_grow_trans; eassumption|]. split.
      * constructor; [|exact X3]. destruct S4 as [S4|S4]; [left; exact S4|right; eapply found_grow; eassumption].
      * intros Eb L. injection L as L. constructor; [eapply found_grow; eassumption|auto].
    + injection H as <-. split; [exact I|]. split; [apply uels_grow_refl|]. split; [constructor; assumption|]. discriminate.
Qed.

(** ** String records among the calls *)

(** The string records among the calls that were accepted, that is, answered by 1. *)
Fixpoint accepted_str (cs : list call) (rs : list resp) : list (list str * list Z) :=
  match cs, rs with
  | c :: cs', r :: rs' =>
      match c with
      | gdxDataWriteStr keys vals => if r_code r =? 1 then [(keys, vals)] else []
      | _ => []
      end ++ accepted_str cs' rs'
  | _, _ => []
  end.
Definition numbered (d : dic) (dim dsize : nat) (h : list str * list Z) (it : list Z * list Z) : Prop :=
  Forall2 (fun s k => found d (trim_right s) k) (firstn dim (fst h)) (fst it) /\ snd it = firstn dsize (snd h).
Definition str_modes : list gmode := [fw_dom_str; fw_str_data].
Definition no_domain (c : call) : bool := match c with gdxSymbolSetDomain _ => false | _ => true end.

Lemma write_map_str : forall keys vals st r st', In (g_mode st) str_modes -> write_map keys vals st = Done (r, st') -> err_only st st'.
Proof.
  intros keys vals st r st' M H. unfold write_map, enter in H.
  replace (mode_in (g_mode st) [fw_dom_map]) with false in H by (destruct M as [<-|[<-|[]]]; reflexivity).
  unfold checked in H. replace (mode_in (g_mode st) [fw_map_data]) with false in H by (destruct M as [<-|[<-|[]]]; reflexivity).
  injection H as <- <-. apply err_only_set_error.
Qed.
Lemma str_mode_step : forall a b, mode_step a b -> In a str_modes -> In b str_modes.
Proof. intros a b M I. destruct M; auto; cbn in I |- *; intuition discriminate. Qed.

Record str_state (h : fhead) (base : list Z) (n : Z) (items : list (list Z * list Z)) (st : gst) : Prop := mkSS {
  ss_winv : exists G, winv h base G st /\ gC G = GBuf n items;
  ss_mode : In (g_mode st) str_modes;
  ss_lab : labels_inv (g_dic st);
  ss_cache : cache_found (g_dic st) (w_lstr (g_wrk st)) (w_last (g_wrk st));
  ss_len : length (w_last (g_wrk st)) = w_dim (g_wrk st)
}.
Definition wfix (a b : gst) : Prop := e_tab (g_env b) = e_tab (g_env a) /\ w_dim (g_wrk b) = w_dim (g_wrk a) /\ w_dsize (g_wrk b) = w_dsize (g_wrk a).

Lemma str_call : forall h base n items c st r st', str_state h base n items st -> while_writing c -> within c = true -> renames c = false ->
  exec z c st = Done (r, st') ->
  exists new, str_state h base n (items ++ new) st' /\ wfix st st' /\ (no_domain c = true -> w_wrb (g_wrk st') = w_wrb (g_wrk st)) /\
    Forall2 (numbered (g_dic st') (w_dim (g_wrk st)) (w_dsize (g_wrk st))) (accepted_str [c] [r]) new.
Proof.
  intros h base n items c st r st' [(G & W & GC) M L C LN] [K O] B RN H.
  assert (ONE : during z [c] st st').
  { split; [|split; [repeat constructor; exact O|exists [r]; cbn [run]; rewrite H; reflexivity]]. destruct c; try discriminate K; reflexivity. }
  assert (LAB : labels_inv (g_dic st')).
  { eapply (during_dic z labels_inv); [|exact ONE|exact L]. intros c' d d' _ A. apply (labels_step c'). exact A. }
  assert (CF : cache_found (g_dic st') (w_lstr (g_wrk st)) (w_last (g_wrk st))).
  { eapply Forall2_weaken; [|exact C]. intros a b [X|X]; [left; exact X|right]. eapply found_during; [exact ONE|repeat constructor; exact RN|exact L|exact X]. }
  assert (ERR : err_only st st' -> exists new, str_state h base n (items ++ new) st' /\ wfix st st' /\ (no_domain c = true -> w_wrb (g_wrk st') = w_wrb (g_wrk st)) /\
    Forall2 (numbered (g_dic st') (w_dim (g_wrk st)) (w_dsize (g_wrk st))) [] new).
  { intros E. exists []. rewrite app_nil_r. destruct (err_only_eq _ _ E) as (A1 & A2 & A3 & A4 & A5 & A6 & _). split; [|split; [|split; [|constructor]]].
    - constructor; [exists G; split; [eapply err_only_winv; eassumption|exact GC]|congruence|exact LAB|rewrite A6; exact CF|rewrite A6; exact LN].
    - unfold wfix. rewrite A6. repeat split. congruence.
    - rewrite A6. reflexivity. }
  destruct (match c with gdxDataWriteStr _ _ | gdxDataWriteMap _ _ => false | _ => true end) eqn:NR.
  - destruct (buf_other _ _ _ _ _ _ _ _ _ W GC (conj K O) B NR H) as (G' & W' & GC' & CA).
    destruct CA as (A1 & A2 & (A3 & A4 & A5 & A6 & A7 & A8 & A9 & A10) & A11).
    exists []. rewrite app_nil_r. split; [|split; [|split]].
    + constructor; [eauto|eapply str_mode_step; eassumption|exact LAB| |]; rewrite ?A7, ?A10, ?A4; assumption.
    + unfold wfix. rewrite A11, A4, A5. auto.
    + intros ND. assert (BY : bystander c = true) by (unfold bystander; rewrite B; destruct c; try discriminate NR; try discriminate ND; reflexivity).
      rewrite (buf_wrk _ _ _ _ (buf_mode_of _ _ _ _ _ _ W GC) K BY H). reflexivity.
    + destruct c; try discriminate NR; constructor.
  - destruct c; try discriminate NR; cbn [exec] in H; cbn [call_ok] in O.
    + apply ERR. eapply write_map_str; eassumption.
    + destruct O as [O1 O2]. destruct (write_str_step _ _ _ _ _ _ _ _ _ W O1 O2 H) as [(-> & W' & (S1 & S2 & S3 & S4 & S5 & S6) & GR & X)|(-> & n' & items' & GC' & LK & LV & W' & (S1 & S2 & S3 & S4 & S5 & S6) & GR & mms' & X)].
      * exists []. rewrite app_nil_r. cbn [accepted_str r_code ret]. split; [|split; [|split; [intros _; exact S5|constructor]]].
        2:{ unfold wfix. rewrite S1. auto. }
        assert (CC : cache_found (g_dic st') (w_lstr (g_wrk st')) (w_last (g_wrk st')) /\ length (w_last (g_wrk st')) = w_dim (g_wrk st')).
        { destruct X as [[-> ->]|(mms' & X)]; [rewrite S3; split; [exact CF|exact LN]|].
          pose proof (str_loop_found _ _ _ _ _ _ (firstn_Forall _ _ _ O1) X L C) as Y. cbv beta iota in Y. destruct Y as (_ & _ & Y & _). split; [exact Y|].
          pose proof (str_loop_len _ _ _ _ _ _ X) as Z0. cbv beta iota in Z0. rewrite Z0, S3. exact LN. }
        constructor; [eauto|eapply str_mode_step; eassumption|exact LAB|apply CC|apply CC].
      * rewrite GC in GC'. injection GC' as <- <-. exists [(w_last (g_wrk st'), firstn (w_dsize (g_wrk st)) vals)].
        pose proof (str_loop_found _ _ _ _ _ _ (firstn_Forall _ _ _ O1) X L C) as Y. cbv beta iota in Y. destruct Y as (_ & _ & Y & FD).
        pose proof (str_loop_len _ _ _ _ _ _ X) as Z0. cbv beta iota in Z0.
        split; [|split; [|split; [intros _; exact S5|]]].
        -- constructor; [eexists; split; [exact W'|reflexivity]|eapply str_mode_step; eassumption|exact LAB|exact Y|congruence].
        -- unfold wfix. rewrite S1. auto.
        -- cbn [accepted_str r_code ret]. change (1 =? 1) with true. cbv iota. cbn [app]. constructor; [|constructor]. split; [|reflexivity].
           cbn [fst]. apply FD; [reflexivity|]. rewrite firstn_length. lia.
Qed.

Lemma numbered_during : forall cs a b dim dsize hd its, during z cs a b -> no_rename cs -> labels_inv (g_dic a) ->
  Forall2 (numbered (g_dic a) dim dsize) hd its -> Forall2 (numbered (g_dic b) dim dsize) hd its.
Proof.
  intros cs a b dim dsize hd its D N I F. eapply Forall2_weaken; [|exact F]. intros x y [X1 X2]. split; [|exact X2].
  eapply Forall2_weaken; [|exact X1]. intros s k. eapply found_during; eassumption.
Qed.

Lemma str_body : forall cs h base n items st rs st', str_state h base n items st -> Forall while_writing cs -> Forall (fun c => within c = true) cs -> no_rename cs ->
  run z cs st = Done (rs, st') ->
  exists new, str_state h base n (items ++ new) st' /\ wfix st st' /\ (Forall (fun c => no_domain c = true) cs -> w_wrb (g_wrk st') = w_wrb (g_wrk st)) /\
    Forall2 (numbered (g_dic st') (w_dim (g_wrk st)) (w_dsize (g_wrk st))) (accepted_str cs rs) new.
Proof.
  induction cs as [|c cs IH]; intros h base n items st rs st' S FW FB FR H.
  - injection H as <- <-. exists []. rewrite app_nil_r. split; [exact S|]. split; [repeat split|]. split; [reflexivity|constructor].
  - destruct (run_cons _ _ _ _ _ _ H) as (r & s1 & rs' & E & R & ->). inversion FW as [|? ? FW1 FW2]; subst. inversion FB as [|? ? FB1 FB2]; subst. inversion FR as [|? ? FR1 FR2]; subst.
    destruct (str_call _ _ _ _ _ _ _ _ S FW1 FB1 FR1 E) as (new & S1 & (T1 & T2 & T3) & WB & N).
    destruct (IH _ _ _ _ _ _ _ S1 FW2 FB2 FR2 R) as (new2 & S2 & (U1 & U2 & U3) & WB2 & N2).
    exists (new ++ new2). rewrite app_assoc. split; [exact S2|]. split; [repeat split; congruence|]. split.
    + intros F. inversion F; subst. rewrite WB2, WB by assumption. reflexivity.
    + change (accepted_str (c :: cs) (r :: rs')) with ((match c with gdxDataWriteStr keys vals => if r_code r =? 1 then [(keys, vals)] else [] | _ => [] end) ++ accepted_str cs rs').
      cbn [accepted_str] in N. rewrite app_nil_r in N. apply Forall2_app; [|rewrite T2, T3 in N2; exact N2].
      destruct (keeps_all _ FW2) as [A1 A2].
      eapply numbered_during; [|exact FR2|apply (ss_lab _ _ _ _ _ S1)|exact N]. split; [exact A1|]. split; [exact A2|]. eauto.
Qed.

(** ** The user numbers of mapped records *)

Lemma buf_usr : forall c st r st', In (g_mode st) buf_modes -> keeps_writing c = true -> call_ok c -> exec z c st = Done (r, st') -> d_usr (g_dic st') = d_usr (g_dic st).
Proof.
  intros c st r st' D K O H. destruct (looks c) eqn:L.
  { assert (E : err_only st st') by (eapply looks_err_only; [exact L| |exact H]; cbn in D |- *; intuition). destruct (err_only_eq _ _ E) as (_ & _ & _ & _ & X & _). rewrite X. reflexivity. }
  destruct (Footprint.numbers c) eqn:N.
  - destruct c; try discriminate N; try discriminate K; try discriminate L; cbn [exec] in H.
    + unfold register_str, checked, refuse in H. rewrite buf_not_in in H by (exact D || reflexivity). injection H as <- <-.
      destruct (set_error_fields ERR_BADMODE st) as (_ & _ & -> & _). reflexivity.
    + unfold register_map, checked, refuse in H. obind_inv H. rewrite buf_not_in in H by (exact D || reflexivity). injection H as <- <-.
      destruct (set_error_fields ERR_BADMODE st) as (_ & _ & -> & _). reflexivity.
  - assert (SC : session_call c = true) by (destruct c; try discriminate K; reflexivity).
    eapply (call_dic z (fun d => d_usr d = d_usr (g_dic st)) c); [exact SC|exact O|exact H| |reflexivity].
    intros d d' A E. destruct (uels_cases c d d' A) as [(_ & U)|[(s & _ & _ & _ & _ & _ & U)|[(n & e & s & o & w & _ & _ & _ & _ & _ & _ & U)|[(en & n & m & e & X & _)|(n & e & _ & _ & U)]]]];
      congruence.
Qed.

(** The mapped records among the calls that were accepted. *)
Fixpoint accepted_map (cs : list call) (rs : list resp) : list (list Z * list Z) :=
  match cs, rs with
  | c :: cs', r :: rs' =>
      match c with
      | gdxDataWriteMap keys vals => if r_code r =? 1 then [(keys, vals)] else []
      | _ => []
      end ++ accepted_map cs' rs'
  | _, _ => []
  end.
Definition mapped (u : imap) (dim dsize : nat) (h it : list Z * list Z) : Prop :=
  Forall2 (fun m k => im_get u m = k /\ 1 <= k) (firstn dim (fst h)) (fst it) /\ snd it = firstn dsize (snd h).
Definition map_modes : list gmode := [fw_dom_map; fw_map_data].

Lemma write_str_map : forall keys vals st r st', In (g_mode st) map_modes -> write_str keys vals st = Done (r, st') -> err_only st st'.
Proof.
  intros keys vals st r st' M H. unfold write_str, enter in H.
  replace (mode_in (g_mode st) [fw_dom_str]) with false in H by (destruct M as [<-|[<-|[]]]; reflexivity).
  unfold checked in H. replace (mode_in (g_mode st) [fw_str_data]) with false in H by (destruct M as [<-|[<-|[]]]; reflexivity).
  injection H as <- <-. apply err_only_set_error.
Qed.
Lemma map_mode_step : forall a b, mode_step a b -> In a map_modes -> In b map_modes.
Proof. intros a b M I. destruct M; auto; cbn in I |- *; intuition discriminate. Qed.

Definition map_state (h : fhead) (base : list Z) (n : Z) (items : list (list Z * list Z)) (st : gst) : Prop :=
  (exists G, winv h base G st /\ gC G = GBuf n items) /\ In (g_mode st) map_modes.

Lemma map_call : forall h base n items c st r st', map_state h base n items st -> while_writing c -> within c = true -> exec z c st = Done (r, st') ->
  exists new, map_state h base n (items ++ new) st' /\ wfix st st' /\ (no_domain c = true -> w_wrb (g_wrk st') = w_wrb (g_wrk st)) /\
    d_usr (g_dic st') = d_usr (g_dic st) /\
    Forall2 (mapped (d_usr (g_dic st)) (w_dim (g_wrk st)) (w_dsize (g_wrk st))) (accepted_map [c] [r]) new.
Proof.
  intros h base n items c st r st' [(G & W & GC) M] [K O] B H.
  assert (U : d_usr (g_dic st') = d_usr (g_dic st)).
  { eapply buf_usr; [eapply buf_mode_of; eassumption|exact K|exact O|exact H]. }
  assert (ERR : err_only st st' -> exists new, map_state h base n (items ++ new) st' /\ wfix st st' /\ (no_domain c = true -> w_wrb (g_wrk st') = w_wrb (g_wrk st)) /\
    d_usr (g_dic st') = d_usr (g_dic st) /\ Forall2 (mapped (d_usr (g_dic st)) (w_dim (g_wrk st)) (w_dsize (g_wrk st))) [] new).
  { intros E. exists []. rewrite app_nil_r. destruct (err_only_eq _ _ E) as (A1 & A2 & A3 & A4 & A5 & A6 & _). split; [|split; [|split; [|split; [exact U|constructor]]]].
    - split; [exists G; split; [eapply err_only_winv; eassumption|exact GC]|congruence].
    - unfold wfix. rewrite A6. repeat split. congruence.
    - rewrite A6. reflexivity. }
  destruct (match c with gdxDataWriteStr _ _ | gdxDataWriteMap _ _ => false | _ => true end) eqn:NR.
  - destruct (buf_other _ _ _ _ _ _ _ _ _ W GC (conj K O) B NR H) as (G' & W' & GC' & CA).
    destruct CA as (A1 & A2 & (A3 & A4 & A5 & A6 & A7 & A8 & A9 & A10) & A11).
    exists []. rewrite app_nil_r. split; [|split; [|split; [|split; [exact U|]]]].
    + split; [eauto|eapply map_mode_step; eassumption].
    + unfold wfix. rewrite A11, A4, A5. auto.
    + intros ND. assert (BY : bystander c = true) by (unfold bystander; rewrite B; destruct c; try discriminate NR; try discriminate ND; reflexivity).
      rewrite (buf_wrk _ _ _ _ (buf_mode_of _ _ _ _ _ _ W GC) K BY H). reflexivity.
    + destruct c; try discriminate NR; constructor.
  - destruct c; try discriminate NR; cbn [exec] in H; cbn [call_ok] in O.
    + destruct O as [O1 O2]. destruct (write_map_step _ _ _ _ _ _ _ _ _ W O2 H) as [(-> & W' & (S1 & S2 & S3 & S4 & S5 & S6) & _)|(-> & n' & items' & ks & GC' & EK & LK & LV & RK & W' & (S1 & S2 & S3 & S4 & S5 & S6) & _)].
      * exists []. rewrite app_nil_r. cbn [accepted_map r_code ret]. split; [|split; [|split; [intros _; exact S5|split; [exact U|constructor]]]].
        -- split; [eauto|eapply map_mode_step; eassumption].
        -- unfold wfix. rewrite S1. auto.
      * rewrite GC in GC'. injection GC' as <- <-. exists [(ks, firstn (w_dsize (g_wrk st)) vals)].
        split; [|split; [|split; [intros _; exact S5|split; [exact U|]]]].
        -- split; [eexists; split; [exact W'|reflexivity]|eapply map_mode_step; eassumption].
        -- unfold wfix. rewrite S1. auto.
        -- cbn [accepted_map r_code ret]. change (1 =? 1) with true. cbv iota. cbn [app]. constructor; [|constructor]. split; [|reflexivity].
           cbn [fst]. rewrite EK in RK |- *. clear - RK. induction (firstn (w_dim (g_wrk st)) keys) as [|k l IH]; [constructor|].
           cbn [List.map] in *. inversion RK as [|? ? R1 R2]; subst. constructor; [split; [reflexivity|lia]|auto].
    + apply ERR. eapply write_str_map; eassumption.
Qed.

Lemma map_body : forall cs h base n items st rs st', map_state h base n items st -> Forall while_writing cs -> Forall (fun c => within c = true) cs ->
  run z cs st = Done (rs, st') ->
  exists new, map_state h base n (items ++ new) st' /\ wfix st st' /\ (Forall (fun c => no_domain c = true) cs -> w_wrb (g_wrk st') = w_wrb (g_wrk st)) /\
    d_usr (g_dic st') = d_usr (g_dic st) /\
    Forall2 (mapped (d_usr (g_dic st)) (w_dim (g_wrk st)) (w_dsize (g_wrk st))) (accepted_map cs rs) new.
Proof.
  induction cs as [|c cs IH]; intros h base n items st rs st' S FW FB H.
  - injection H as <- <-. exists []. rewrite app_nil_r. split; [exact S|]. split; [repeat split|]. split; [reflexivity|]. split; [reflexivity|constructor].
  - destruct (run_cons _ _ _ _ _ _ H) as (r & s1 & rs' & E & R & ->). inversion FW as [|? ? FW1 FW2]; subst. inversion FB as [|? ? FB1 FB2]; subst.
    destruct (map_call _ _ _ _ _ _ _ _ S FW1 FB1 E) as (new & S1 & (T1 & T2 & T3) & WB & U1 & N).
    destruct (IH _ _ _ _ _ _ _ S1 FW2 FB2 R) as (new2 & S2 & (V1 & V2 & V3) & WB2 & U2 & N2).
    exists (new ++ new2). rewrite app_assoc. split; [exact S2|]. split; [repeat split; congruence|]. split; [|split; [congruence|]].
    + intros F. inversion F; subst. rewrite WB2, WB by assumption. reflexivity.
    + change (accepted_map (c :: cs) (r :: rs')) with ((match c with gdxDataWriteMap keys vals => if r_code r =? 1 then [(keys, vals)] else [] | _ => [] end) ++ accepted_map cs rs').
      cbn [accepted_map] in N. rewrite app_nil_r in N. apply Forall2_app; [exact N|rewrite T2, T3, U1 in N2; exact N2].
Qed.

(** ** From the collected records to the file *)

Lemma buf_finish : forall h base0 t G n items st r st', winv h (base0 ++ t) G st -> gC G = GBuf n items -> uel_count (g_dic st) <= INT_MAX ->
  ~ In (Some n) (w_wrb (g_wrk st)) -> exec z gdxDataWriteDone st = Done (r, st') ->
  exists J rs, stable_sort_of items rs /\ jinv z h base0 J st' /\ noted_at J n (stored_items (e_tab (g_env st)) (g_dic st) (w_wrb (g_wrk st)) rs) /\
    g_err st' = set_r_cnt 0 (refused_errs (g_dic st) (w_wrb (g_wrk st)) None rs (g_err st)) /\ g_mode st' = fw_init.
Proof.
  intros h base0 t G n items st r st' W GC UC NI H. cbn [exec] in H.
  destruct (write_done_buf_step _ _ _ _ _ _ _ _ _ W GC H) as (sy & sy' & o & (-> & (t' & W') & M & A & EV) & GS & X & _).
  destruct (X UC) as (recs & rs & -> & SS & E). destruct (E NI) as (-> & _ & ER). rewrite <- app_assoc in W'.
  exists (mkJ (e_tab (g_env st')) (zset (n - 1) (Some (stored_items (e_tab (g_env st)) (g_dic st) (w_wrb (g_wrk st)) rs)) (gR G)) JIdle), rs.
  split; [exact SS|]. split.
  - left. eexists (t ++ t'), _. split; [exact W'|]. constructor; cbn [j_tab j_syms j_phase gR gC].
    + reflexivity.
    + apply Forall2_refl. intros x. right. reflexivity.
    + split; [reflexivity|exact M].
  - split; [|split; [exact ER|exact M]]. split; [|exact I]. cbn [j_syms]. apply znth_zset_eq. destruct W as [_ P]. unfold phase in P. rewrite GC in P. destruct P as [_ P].
    eapply znth_Some. exact P.
Qed.

End Z.
