(** * Properties of mapped and filtered reads: C09, C16, C17, C45 *)

From Coq Require Import String Permutation Sorted.
From Verif Require Import Base Prim Values FloatAcr Records LinkedData StrHash IntMap Strings AStream BufStream State
  FileImage ApiCore ApiFile ApiWrite ApiRead Api FileFacts BlockFacts StreamFacts OpenFacts DicInv WriteInv WriteSteps Journal WriteCalls WriteTrace
  FileFlow Footprint SessInv Sessions Vocab PropErr Reopen ReadFacts ReadRecs ReadLoops PropNames PropMeta Segment PropTexts PropDomain LabelFacts Buffered Contents MapFacts Domains Wrote
  PropRead PropStrings PropChecks PropWidths Readers Cases PropLabels PropFilter.
Open Scope Z_scope.
Open Scope list_scope.

(** ** Specification *)

(** What a reader asks for at one position of the indices: the index as it is stored, the
    user number of the label, or the user number if filter [f], which has the numbers [vs],
    lets it pass. *)
Inductive request := AsStored | UserNumber | InFilter (f : Z) (vs : list Z).
(** The number that stands for it in gdxDataReadFilteredStart. *)
Definition code (r : request) : Z := match r with AsStored => -2 | UserNumber => 0 | InFilter f _ => f end.
Definition request_ok (z : zlib) (st : gst) (r : request) : Prop := match r with InFilter f vs => filter_is z f vs st | _ => True end.
(** The index [k] is shown as [u]. *)
Definition shown_as (z : zlib) (st : gst) (r : request) (k u : Z) : Prop :=
  match r with
  | AsStored => u = k
  | UserNumber => user_number z st k u /\ 0 <= u
  | InFilter _ vs => user_number z st k u /\ In u vs
  end.
Fixpoint shown_keys (z : zlib) (st : gst) (reqs : list request) (ks us : list Z) : Prop :=
  match reqs, ks, us with
  | r :: reqs', k :: ks', u :: us' => shown_as z st r k u /\ shown_keys z st reqs' ks' us'
  | [], [], [] => True
  | _, _, _ => False
  end.
(** Of the records [recs], those all of whose indices can be shown, as they are shown, and
    the others; a value [x] is shown as [f x]. *)
Inductive selects (z : zlib) (st : gst) (reqs : list request) (f : Z -> Z) : list (list Z * list Z) -> list (list Z * list Z) -> list (list Z * list Z) -> Prop :=
| sel_nil : selects z st reqs f [] [] []
| sel_pass : forall k v us recs P R, shown_keys z st reqs k us -> selects z st reqs f recs P R -> selects z st reqs f ((k, v) :: recs) ((us, List.map f v) :: P) R
| sel_not : forall k v recs P R, (forall us, ~ shown_keys z st reqs k us) -> selects z st reqs f recs P R -> selects z st reqs f ((k, v) :: recs) P ((k, List.map f v) :: R).
(** An index that cannot be shown is negated: everywhere, or at the first such position. *)
Fixpoint marked (z : zlib) (st : gst) (everywhere : bool) (reqs : list request) (ks ms : list Z) : Prop :=
  match reqs, ks, ms with
  | r :: reqs', k :: ks', m :: ms' =>
      ((exists u, shown_as z st r k u) /\ m = k /\ marked z st everywhere reqs' ks' ms') \/
      ((forall u, ~ shown_as z st r k u) /\ m = - k /\ (if everywhere then marked z st everywhere reqs' ks' ms' else ms' = ks'))
  | [], [], [] => True
  | _, _, _ => False
  end.

(** No two labels have the same user number. *)
Definition numbered_apart (z : zlib) (st : gst) : Prop := forall k k' u, user_number z st k u -> user_number z st k' u -> 0 <= u -> k = k'.

(** The call that starts the reading of symbol [n] with the requests [reqs]. *)
Inductive starts (n : Z) (reqs : list request) : call -> Prop :=
| starts_map : Forall (fun r => r = UserNumber) reqs -> starts n reqs (gdxDataReadMapStart n)
| starts_filtered : forall acts, firstn (length reqs) acts = List.map code reqs -> starts n reqs (gdxDataReadFilteredStart n acts).

(** ** The order of user numbers and filters *)

Lemma status_step : forall c d d', user_inv true d -> datom c d d' -> status_inv d -> status_inv d'.
Proof.
  intros c d d' U A SI s. destruct A; cbn [d_status set_d_names set_d_uels set_d_usr set_d_status set_d_texts set_d_acros set_d_filts set_d_dstrs d_uels]; try (exact (SI s)); try discriminate;
    try (match goal with |- context [upd_sym ?n ?f ?d] => destruct (upd_sym_same n f d) as (E1 & _ & _ & _ & E2); rewrite E1, E2; exact (SI s) end).
  - unfold uel_add. destruct (sl_add true (d_uels d) s0 (-1)) as [l i] eqn:SA. cbn [snd d_status set_d_uels d_uels]. intros E N. destruct (sl_add_cases _ _ _ _ _ _ SA) as [(-> & _)|(-> & _)]; [exact (SI s E N)|].
    pose proof (SI s E N) as IN. intros i0 j L. unfold num.
    destruct (znth (d_uels d ++ [(s0, -1)]) (i0 - 1)) as [e1|] eqn:E1; [|lia]. destruct (znth (d_uels d ++ [(s0, -1)]) (j - 1)) as [e2|] eqn:E2; [|lia].
    apply StrHash.znth_snoc in E1, E2. destruct E1 as [E1|[_ ->]]; [|cbn; lia]. destruct E2 as [E2|[_ ->]]; [|cbn; lia]. specialize (IN i0 j L). unfold num in IN. rewrite E1, E2 in IN. exact IN.
  - intros E N. pose proof (SI s E N) as IN. intros i j L. specialize (IN i j L). revert IN.
    assert (X : forall k, num (zset (n - 1) (s0, snd e) (d_uels d)) k = num (d_uels d) k).
    { intros k. unfold num. destruct (Z.eq_dec (k - 1) (n - 1)) as [Q|Q]; [rewrite Q, znth_zset_eq by (eapply znth_Some; eassumption)|rewrite znth_zset_neq by congruence; reflexivity].
      match goal with H : znth (d_uels d) (n - 1) = Some e |- _ => rewrite H end. reflexivity. }
    rewrite !X. auto.
  - destruct (ui_get _ _ U n) as [Q|(_ & s1 & Q)].
    + match goal with H : znth (d_uels d) _ = Some e |- _ => rewrite Q in H; apply znth_Some in H; lia end.
    + match goal with H : znth (d_uels d) _ = Some e |- _ => rewrite Q in H; injection H as <- end. cbn [fst]. rewrite zset_same by exact Q. exact (SI s).
  - intros E N. destruct (status_same d) as (-> & _). apply map_status_increasing; [exact SI|]. destruct (map_status_some d) as [X _]. rewrite X in E. injection E as ->. exact N.
Qed.

(** What objects that read are like. *)
Definition map_obj (st : gst) : Prop := user_inv true (g_dic st) /\ status_inv (g_dic st).
Lemma map_obj_during : forall z cs a b, during z cs a b -> map_obj a -> map_obj b.
Proof.
  intros z cs a b D F. eapply (during_dic z (fun d => user_inv true d /\ status_inv d)) with (cs := cs) (a := a); [|exact D|exact F].
  intros c d d' I A (I1 & I2). split; [eapply user_step; [left; reflexivity|exact A|exact I1]|]. eapply status_step; eassumption.
Qed.
Lemma opened_map : forall z st, opened_to_read z st -> map_obj st.
Proof.
  intros z st O. assert (X : in_reading z [] st) by (exists st; split; [exact O|apply during_nil]). destruct (reading_filt _ _ _ X) as (U & _). split; [exact U|].
  apply opened_read_facts in O. destruct O as (_ & _ & _ & _ & _ & NN & UN & US & SN & _). intros s E. congruence.
Qed.

(** The order of the labels of a filter, as long as no two labels have the same number. *)
Definition apart (us : list (str * Z)) : Prop := forall i j, 0 <= num us i -> num us i = num us j -> i = j.
Lemma apart_iff : forall z st, numbered_apart z st -> apart (d_uels (g_dic st)).
Proof.
  intros z st NA i j P E. unfold num in *. destruct (znth (d_uels (g_dic st)) (i - 1)) as [[s u]|] eqn:E1; [|lia]. destruct (znth (d_uels (g_dic st)) (j - 1)) as [[t v]|] eqn:E2; [|cbn in *; lia].
  cbn [snd] in *. subst v. apply (NA i j u); [apply user_number_iff; eauto..|exact P].
Qed.
Lemma filt_increasing_sorted : forall f l lv, filt_increasing f l lv = true ->
  (forall i v, znth l i = Some v -> in_filter f v = true -> lv < v) /\ forall i j v w, i < j -> znth l i = Some v -> znth l j = Some w -> in_filter f v = true -> in_filter f w = true -> v < w.
Proof.
  intros f. induction l as [|x l IH]; intros lv H; cbn [filt_increasing] in H.
  - split; intros; rewrite zn_nil in *; discriminate.
  - destruct (in_filter f x) eqn:FX.
    + destruct (Z.leb_spec x lv); [discriminate|]. destruct (IH _ H) as [A B]. split.
      * intros i v E V. apply znth_cons in E. destruct E as [[-> ->]|[_ E]]; [assumption|]. specialize (A _ _ E V). lia.
      * intros i j v w L E1 E2 V W. apply znth_cons in E1, E2. destruct E2 as [[-> ->]|[I2 E2]]; [destruct E1 as [[-> _]|[? _]]; lia|].
        destruct E1 as [[-> ->]|[I1 E1]]; [exact (A _ _ E2 W)|]. apply (B (i - 1) (j - 1)); auto; lia.
    + destruct (IH _ H) as [A B]. split.
      * intros i v E V. apply znth_cons in E. destruct E as [[-> ->]|[_ E]]; [congruence|]. exact (A _ _ E V).
      * intros i j v w L E1 E2 V W. apply znth_cons in E1, E2. destruct E2 as [[-> ->]|[I2 E2]]; [congruence|].
        destruct E1 as [[-> ->]|[I1 E1]]; [congruence|]. apply (B (i - 1) (j - 1)); auto; lia.
Qed.

Lemma in_filter_list : forall f v, in_filter f v = true -> In v (fl_map f).
Proof. intros f v H. unfold in_filter in H. apply Bool.andb_true_iff in H. destruct H as [_ H]. apply existsb_exists in H. destruct H as (y & Y & Q). apply Z.eqb_eq in Q. congruence. Qed.

(** The filter object after its definition. *)
Lemma defines_order : forall z f regs rs a b, filt_obj a -> map_obj a -> defines z f regs rs a b ->
  (forall g, g <> f -> find_filter (d_filts (g_dic b)) g = find_filter (d_filts (g_dic a)) g) /\
  exists g, find_filter (d_filts (g_dic b)) f = Some g /\ (forall v, in_filter g v = true -> exists i, num (d_uels (g_dic b)) i = v /\ 0 <= v) /\
    (fl_sorted g = true -> filter_order (d_uels (g_dic b)) g).
Proof.
  intros z f regs rs a b FO MO DF. pose proof DF as (r0 & a1 & a2 & r1 & ST & RC & RU & DN).
  destruct (start_filter _ _ _ _ _ FO ST RC) as (FP & EQ & FF & FO1).
  assert (D0 : defining f (im_high (d_usr (g_dic a))) [] a a1).
  { constructor; try (subst a1; reflexivity); [|exact FO1]. exists [], false. split; [exact FF|tauto]. }
  destruct (register_all _ _ _ _ _ _ _ _ _ FO eq_refl D0 RU) as [D1 F2]. rewrite app_nil_r in D1. destruct D1 as [D1 D2 D3 D4 D5 (l & s & D6 & D7) D8].
  assert (SI : status_inv (g_dic a2)).
  { assert (DU : during z ([gdxFilterRegisterStart f] ++ List.map gdxFilterRegister regs) a a2).
    { split; [|split].
      - cbn. apply forallb_forall. intros c I. apply in_map_iff in I. destruct I as (v & <- & _). reflexivity.
      - apply Forall_forall. intros c I. cbn in I. destruct I as [<-|I]; [exact Logic.I|]. apply in_map_iff in I. destruct I as (v & <- & _). exact Logic.I.
      - exists ([r0] ++ rs). eapply run_app; [cbn [run]; rewrite ST; reflexivity|exact RU]. }
    exact (proj2 (map_obj_during _ _ _ _ DU MO)). }
  cbn [exec] in DN. unfold filter_register_done, checked in DN. rewrite D1 in DN. change (mode_in fr_filter [fr_filter]) with true in DN. cbn iota in DN. unfold cur_filter in DN. rewrite D2, D6 in DN. cbn [obind] in DN.
  destruct (status_same (g_dic a2)) as (MU & _ & _ & MF & _). pose proof (map_status_increasing (g_dic a2) SI) as INC.
  destruct (map_status (g_dic a2)) as [ms d2] eqn:MS. cbn [snd fst] in *. injection DN as <- <-.
  cbn [g_dic set_g_mode upd_wrk upd_dic upd set_g_wrk set_g_dic d_filts set_d_filts d_uels]. split.
  - intros g N. rewrite find_put. cbn [fl_nr set_fl_sorted]. destruct (Z.eqb_spec f g); [congruence|]. rewrite MF. apply D8. exact N.
  - eexists. rewrite find_put. cbn [fl_nr set_fl_sorted]. rewrite Z.eqb_refl, MF, D6. cbn [option_map]. split; [reflexivity|]. split.
    + intros v IV. apply in_filter_list in IV. cbn [fl_map set_fl_sorted] in IV. apply D7 in IV. apply in_rev in IV. unfold accepted in IV. apply in_map_iff in IV. destruct IV as ((x & r) & <- & IV). apply filter_In in IV. destruct IV as [IV CR]. cbn [fst snd] in *. apply Z.eqb_eq in CR.
      assert (X : 1 <= x <= im_high (d_usr (g_dic a)) /\ 1 <= im_get (d_usr (g_dic a)) x).
      { clear - F2 IV CR. revert IV. induction F2 as [|v r' regs rs P F2 IH]; cbn; [tauto|]. intros [Q|Q]; [injection Q as -> ->; apply P; exact CR|exact (IH Q)]. }
      destruct (ui_get _ _ (proj1 MO) x) as [Q|(_ & t & Q)]; [lia|]. exists (im_get (d_usr (g_dic a)) x). split; [|lia]. unfold num. rewrite MU, D4, Q. reflexivity.
    + cbn [fl_sorted set_fl_sorted]. intros SO. rewrite MU. destruct ms eqn:EM.
      * rewrite MU in SO. destruct (filt_increasing_sorted _ _ _ SO) as [_ B]. intros i j L V W. unfold num in *.
        assert (N1 : in_filter (mkFilt f (im_high (d_usr (g_dic a))) l s) (-1) = false) by reflexivity.
        destruct (znth (d_uels (g_dic a2)) (i - 1)) as [e1|] eqn:E1; [|change (in_filter _ (-1)) with false in V; discriminate]. destruct (znth (d_uels (g_dic a2)) (j - 1)) as [e2|] eqn:E2; [|change (in_filter _ (-1)) with false in W; discriminate].
        apply (B (i - 1) (j - 1)); [lia|rewrite znth_map, E1; reflexivity|rewrite znth_map, E2; reflexivity|exact V|exact W].
      * apply increasing_filter. apply INC. discriminate.
      * apply increasing_filter. apply INC. discriminate.
      * apply increasing_filter. apply INC. discriminate.
Qed.

Lemma later_order : forall z f a b, later z f a b -> filt_obj a -> map_obj a ->
  find_filter (d_filts (g_dic b)) f = find_filter (d_filts (g_dic a)) f /\ labels_grow (g_dic a) (g_dic b) /\ map_obj b.
Proof.
  assert (GR : forall z cs a b, during z cs a b -> map_obj a -> labels_grow (g_dic a) (g_dic b)).
  { intros z cs a b D (U & _). eapply (during_dic z (fun d => user_inv true d /\ labels_grow (g_dic a) d)) with (cs := cs) (a := a); [|exact D|split; [exact U|apply labels_grow_refl]].
    intros c d d' I A [I1 I2]. split; [eapply user_step; [left; reflexivity|exact A|exact I1]|]. eapply labels_grow_trans; [exact I2|]. eapply labels_grow_step; eassumption. }
  intros z f a b L. induction L as [a|a c r b e SC OK FC E L IH|a g regs rs b e N D L IH]; intros FO MO.
  - split; [reflexivity|]. split; [apply labels_grow_refl|exact MO].
  - pose proof (one_call z c a r b SC OK E) as DU. destruct (IH (filt_obj_during _ _ _ _ DU FO) (map_obj_during _ _ _ _ DU MO)) as (A & B & C). split; [|split; [|exact C]].
    + rewrite A, (other_call_filts _ _ _ _ _ SC OK FC E). reflexivity.
    + eapply labels_grow_trans; [eapply GR; eassumption|exact B].
  - destruct (defines_during _ _ _ _ _ _ D) as (cs & DU). destruct (IH (filt_obj_during _ _ _ _ DU FO) (map_obj_during _ _ _ _ DU MO)) as (A & B & C). split; [|split; [|exact C]].
    + rewrite A. destruct (defines_order _ _ _ _ _ _ FO MO D) as [X _]. apply X. congruence.
    + eapply labels_grow_trans; [eapply GR; eassumption|exact B].
Qed.

Lemma filter_is_order : forall z f vs st g, filter_is z f vs st -> find_filter (d_filts (g_dic st)) f = Some g -> fl_sorted g = true -> apart (d_uels (g_dic st)) ->
  filter_order (d_uels (g_dic st)) g.
Proof.
  intros z f vs st g (cs & a & regs & rs & b & IR & D & -> & L) FF SO AP. pose proof (reading_filt _ _ _ IR) as FO.
  assert (MO : map_obj a) by (destruct IR as (st0 & O & DU); eapply map_obj_during; [exact DU|eapply opened_map; exact O]).
  destruct (defines_during _ _ _ _ _ _ D) as (ds & DD). destruct (defines_order _ _ _ _ _ _ FO MO D) as (_ & g' & F' & MEM & ORD).
  destruct (later_order _ _ _ _ L (filt_obj_during _ _ _ _ DD FO) (map_obj_during _ _ _ _ DD MO)) as (EF & GR & _). rewrite EF, F' in FF. injection FF as ->. specialize (ORD SO).
  assert (X : forall i, in_filter g (num (d_uels (g_dic st)) i) = true -> num (d_uels (g_dic b)) i = num (d_uels (g_dic st)) i).
  { intros i H. destruct (MEM _ H) as (i0 & E & P). assert (E0 : num (d_uels (g_dic st)) i0 = num (d_uels (g_dic b)) i0).
    { unfold num in E |- *. destruct (znth (d_uels (g_dic b)) (i0 - 1)) as [e|] eqn:Z0; [|unfold num in P; lia]. destruct (GR _ _ Z0) as (e' & -> & Q). apply Q. rewrite E. exact P. }
    assert (Y : i = i0) by (apply AP; [exact P|congruence]). subst i0. congruence. }
  intros i j LT A B. pose proof (X i A) as XA. pose proof (X j B) as XB. rewrite <- XA, <- XB. apply ORD; [exact LT|rewrite XA; exact A|rewrite XB; exact B].
Qed.

(** ** The requests as the object sees them *)

Definition filtered (r : request) : Prop := match r with InFilter _ _ => True | _ => False end.
(** The action [a] does what [r] asks for, and it keeps the order when the object says so. *)
Record fits (z : zlib) (st : gst) (r : request) (a : dact) : Prop := mkFits {
  ft_plain : a <> dm_expand;
  ft_shown : forall k u, in_table (d_uels (g_dic st)) k -> (shown_as z st r k u <-> act_map (d_uels (g_dic st)) a k = Some u);
  ft_mono : ~ filtered r \/ apart (d_uels (g_dic st)) -> keeps_order (fst (map_status (g_dic st))) a -> mono (d_uels (g_dic st)) a
}.

Lemma user_number_num : forall z st k u, in_table (d_uels (g_dic st)) k -> (user_number z st k u <-> num (d_uels (g_dic st)) k = u).
Proof.
  intros z st k u [A B]. rewrite user_number_iff. unfold num. destruct (znth_exists (d_uels (g_dic st)) (k - 1) ltac:(lia)) as ((s & v) & ->). cbn [snd]. split.
  - intros (t & H). congruence.
  - intros ->. eauto.
Qed.
Lemma filter_number : forall z f vs st, filter_is z f vs st -> 1 <= f.
Proof. intros z f vs st (cs & a & regs & rs & b & IR & (r0 & a1 & a2 & r1 & ST & RC & _) & _). exact (proj1 (start_filter _ _ _ _ _ (reading_filt _ _ _ IR) ST RC)). Qed.

Lemma requests_fit : forall z st, map_obj st -> forall reqs, Forall (request_ok z st) reqs ->
  exists acts, domain_actions (d_filts (g_dic st)) (List.map code reqs) = Some acts /\ Forall2 (fits z st) reqs acts /\ Forall (fun m => m <> -1) (List.map code reqs).
Proof.
  intros z st MO reqs F. induction F as [|r reqs OK F (acts & DA & FT & NX)]; [exists []; cbn; auto|]. destruct r as [| |f vs]; cbn [List.map code domain_actions].
  - exists (dm_unmapped :: acts). change (-2 =? -2) with true. cbv iota. rewrite DA. split; [reflexivity|]. split; constructor; try assumption; try discriminate.
    constructor; [discriminate| |intros _ _; apply mono_unmapped]. intros k u _. cbn. split; [intros ->; reflexivity|intros X; injection X; auto].
  - exists (dm_strict :: acts). cbn [Z.eqb]. rewrite DA. split; [reflexivity|]. split; constructor; try assumption; try discriminate.
    constructor; [discriminate| |].
    + intros k u IT. cbn [shown_as act_map]. rewrite user_number_num by exact IT. destruct (Z.leb_spec 0 (num (d_uels (g_dic st)) k)); split.
      * intros [-> _]. reflexivity.
      * intros X. injection X as X. split; [exact X|lia].
      * intros [X Y]. lia.
      * discriminate.
    + intros _ K. apply mono_strict. apply map_status_increasing; [apply MO|exact K].
  - cbn [request_ok] in OK. pose proof (filter_number _ _ _ _ OK) as FP. destruct (filter_is_holds _ _ _ _ OK) as [(h & l & s & FF & IN & RG) _].
    exists (dm_filter (mkFilt f h l s) :: acts). destruct (Z.eqb_spec f (-2)); [lia|]. destruct (Z.eqb_spec f (-1)); [lia|]. destruct (Z.eqb_spec f 0); [lia|]. rewrite FF, DA.
    split; [reflexivity|]. split; constructor; try assumption. constructor; [discriminate| |].
    + intros k u IT. cbn [shown_as act_map]. rewrite user_number_num by exact IT.
      assert (X : in_filter (mkFilt f h l s) (num (d_uels (g_dic st)) k) = true <-> In (num (d_uels (g_dic st)) k) vs).
      { split; [intros H; apply in_filter_list in H; apply IN; exact H|]. intros H. rewrite Forall_forall in RG. destruct (RG _ H). unfold in_filter. cbn [fl_max fl_map].
        rewrite !Bool.andb_true_iff. split; [split; lia|]. apply existsb_exists. eexists. split; [apply IN; exact H|apply Z.eqb_refl]. }
      destruct (in_filter _ _); split.
      * intros [-> _]. reflexivity.
      * intros Y. injection Y as <-. split; [reflexivity|apply X; reflexivity].
      * intros [<- Y]. apply X in Y. discriminate.
      * discriminate.
    + intros OR K. destruct OR as [OR|AP]; [contradiction OR; exact I|]. apply mono_filter. cbn [keeps_order] in K. destruct K as [K|K].
      * apply increasing_filter. apply map_status_increasing; [apply MO|exact K].
      * eapply filter_is_order; eassumption.
Qed.

Lemma shown_keys_iff : forall z st reqs acts, Forall2 (fits z st) reqs acts -> forall ks us, length ks = length reqs -> Forall (in_table (d_uels (g_dic st))) ks ->
  (shown_keys z st reqs ks us <-> map_keys (d_uels (g_dic st)) acts ks = Some us).
Proof.
  intros z st reqs acts F. induction F as [|r a reqs acts FT F IH]; intros [|k ks] us L IT; try discriminate.
  - cbn. destruct us; split; try tauto; congruence.
  - pose proof (Forall_inv IT) as I1. pose proof (Forall_inv_tail IT) as I2. cbn [shown_keys map_keys]. destruct us as [|u us].
    + split; [tauto|]. destruct (act_map _ a k); [|discriminate]. destruct (map_keys _ acts ks); discriminate.
    + rewrite (ft_shown _ _ _ _ FT k u I1), (IH ks us ltac:(cbn in L; lia) I2). split.
      * intros [-> ->]. reflexivity.
      * destruct (act_map _ a k); [|discriminate]. destruct (map_keys _ acts ks); [|discriminate]. intros X. injection X as -> ->. auto.
Qed.
Lemma marked_iff : forall z st reqs acts, Forall2 (fits z st) reqs acts -> forall ks, length ks = length reqs -> Forall (in_table (d_uels (g_dic st))) ks ->
  marked z st true reqs ks (neg_all (d_uels (g_dic st)) acts ks) /\ marked z st false reqs ks (neg_first (d_uels (g_dic st)) acts ks).
Proof.
  intros z st reqs acts F. induction F as [|r a reqs acts FT F IH]; intros [|k ks] L IT; try discriminate; [cbn; auto|].
  pose proof (Forall_inv IT) as I1. destruct (IH ks ltac:(cbn in L; lia) (Forall_inv_tail IT)) as [A B]. pose proof (fun u => ft_shown _ _ _ _ FT k u I1) as X.
  cbn [neg_all neg_first marked]. destruct (act_map _ a k) as [u|] eqn:E.
  - split; (left; split; [exists u; apply X; reflexivity|]; split; [reflexivity|assumption]).
  - split; (right; split; [intros u H; apply X in H; discriminate|]; split; [reflexivity|]); [exact A|reflexivity].
Qed.

(** ** The state from which a symbol is read *)

Lemma restore_same : forall k n d d', user_inv true d -> restore_maps k n d = Done d' -> d' = d.
Proof.
  induction k as [|k IH]; intros n d d' U H; cbn [restore_maps] in H; [injection H as <-; reflexivity|].
  destruct (set_user_map (im_get (d_usr d) n) n d) as [d1|] eqn:E; [|discriminate]. cbn [obind] in H. unfold set_user_map in E.
  destruct (znth (d_uels d) (im_get (d_usr d) n - 1)) as [e|] eqn:Z0; [|discriminate]. injection E as <-.
  destruct (ui_get _ _ U n) as [Q|(_ & s & Q)]; [rewrite Q in Z0; apply znth_Some in Z0; lia|]. rewrite Q in Z0. injection Z0 as <-. cbn [fst] in H.
  assert (X : set_d_uels (zset (im_get (d_usr d) n - 1) (s, n) (d_uels d)) d = d) by (rewrite zset_same by exact Q; destruct d; reflexivity).
  rewrite X in H. eapply IH; eassumption.
Qed.
Lemma start_from : forall z F tab k n doms m c st st', user_inv true (g_dic st) -> reads_file z F tab k st -> prepare_symbol_read z n doms m st = Done (c, st') -> 0 <= c ->
  exists st1, reads_file z F tab k st1 /\ g_mode st1 = fr_init /\ prepare_symbol_read z n doms m st1 = Done (c, st') /\ g_env st1 = g_env st /\ g_dic st1 = g_dic st /\ g_err st1 = g_err st.
Proof.
  intros z F tab k n doms m c st st' U Q P C. destruct (mode_in (g_mode st) symbol_modes) eqn:M.
  - unfold prepare_symbol_read in P. unfold symbol_modes in M. rewrite M in P.
    destruct (data_read_done st) as [[b s1]|] eqn:D; [|discriminate]. exists s1. split; [eapply done_reads; eassumption|].
    cbn [obind] in P.
    assert (X : g_mode s1 = fr_init /\ g_env s1 = g_env st /\ g_dic s1 = g_dic st /\ g_err s1 = g_err st).
    { unfold data_read_done in D. cbv zeta in D. change (g_mode (upd_wrk _ st)) with (g_mode st) in D.
      assert (M2 : mode_in (g_mode st) [fr_init; fr_raw_data; fr_map_data; fr_mapr_data; fr_str_data; fr_slice] = true) by (destruct (g_mode st); try discriminate M; reflexivity).
      rewrite M2 in D. cbn [negb] in D. destruct (w_added _ =? 0) eqn:WA.
      - cbn [obind] in D. injection D as <- <-. repeat split; reflexivity.
      - destruct (restore_maps _ _ _) as [d|] eqn:R; [|discriminate]. cbn [obind] in D. injection D as <- <-. apply restore_same in R; [|exact U]. repeat split; try reflexivity. exact R. }
    destruct X as (X1 & X2 & X3 & X4). split; [exact X1|]. split; [|auto].
    unfold prepare_symbol_read. rewrite X1. change (mode_in fr_init [fr_str_data; fr_map_data; fr_mapr_data; fr_raw_data]) with false. cbn [obind]. exact P.
  - destruct (mode_in (g_mode st) [fr_init]) eqn:MI.
    + exists st. split; [exact Q|]. split; [|split; [exact P|auto]]. destruct (g_mode st); try discriminate MI. reflexivity.
    + exfalso. unfold prepare_symbol_read in P. unfold symbol_modes in M. rewrite M in P. cbn [obind] in P. cbv zeta in P.
      change (g_mode (upd_wrk _ _)) with (g_mode st) in P. rewrite MI in P. cbn [negb] in P. injection P as <- _. lia.
Qed.

(** ** Selections *)

Section Sel.
Context (z : zlib) (st : gst) (reqs : list request) (acts : list dact) (wt : list Z).
Hypothesis FT : Forall2 (fits z st) reqs acts.
Let us := d_uels (g_dic st).

Lemma sel_exists : forall recs prev, Forall (fun r : list Z * list Z => length (fst r) = length reqs /\ Forall (in_table us) (fst r)) recs ->
  let todo := with_first prev (List.map (store_rec wt) recs) in
  exists R, selects z st reqs (sees st wt) recs (passing us acts st todo) R /\ R = List.map (fun t : triple => (snd (fst t), value_of st (snd t))) (failing us acts todo) /\
    Forall (fun r : list Z * list Z => length (fst r) = length reqs /\ Forall (in_table us) (fst r)) R.
Proof.
  intros recs prev. revert prev. induction recs as [|[k v] recs IH]; intros prev G todo; [exists []; split; [constructor|split; [reflexivity|constructor]]|].
  pose proof (Forall_inv G) as [G1 G2]. cbn [fst] in G1, G2. destruct (IH k (Forall_inv_tail G)) as (R & S1 & S2 & S3). unfold todo. clear todo. cbn [List.map with_first store_rec fst snd].
  assert (V : value_of st (List.map (classify (wt ++ tail_values)) v) = List.map (sees st wt) v) by (unfold value_of; rewrite map_map; reflexivity).
  cbn [passing flat_map failing filter fst snd]. pose proof (fun u => shown_keys_iff z st reqs acts FT k u G1 G2) as X. fold us in X. destruct (map_keys us acts k) as [u|] eqn:E.
  - exists R. cbn [app]. rewrite V. split; [|auto]. apply sel_pass; [apply X; reflexivity|exact S1].
  - exists ((k, List.map (sees st wt) v) :: R). cbn [app List.map fst snd]. rewrite V. split; [apply sel_not; [intros u H; apply X in H; discriminate|exact S1]|].
    split; [f_equal; exact S2|constructor; [auto|exact S3]].
Qed.

Lemma passing_sorted : forall todo, Forall (mono us) acts -> Forall (fun t : triple => length (snd (fst t)) = length acts) todo ->
  length acts = O \/ StronglySorted lex_lt (List.map (fun t : triple => snd (fst t)) todo) ->
  (length acts = O -> Forall (fun r : list Z * list Z => fst r = []) (passing us acts st todo)) /\
  (length acts <> O -> StronglySorted lex_lt (List.map fst (passing us acts st todo))).
Proof.
  intros todo MN L O. split.
  - intros Z0. destruct acts as [|? ?]; [|discriminate]. clear. induction todo as [|t todo IH]; [constructor|]. cbn. constructor; [reflexivity|exact IH].
  - intros NZ. destruct O as [O|O]; [contradiction|]. clear NZ. induction todo as [|t todo IH]; [constructor|]. cbn [List.map] in O. inversion O as [|? ? O1 O2]; subst.
    specialize (IH (Forall_inv_tail L) O1). cbn [passing flat_map]. destruct (map_keys us acts (snd (fst t))) as [u|] eqn:E; [|exact IH]. cbn [app List.map fst]. constructor; [exact IH|].
    pose proof (Forall_inv L) as L1. apply Forall_inv_tail in L. clear IH O1 O. induction todo as [|t' todo IH']; [constructor|]. cbn [List.map] in O2. pose proof (Forall_inv O2) as O3.
    cbn [passing flat_map]. rewrite map_app. apply Forall_app. split; [|apply IH'; [exact (Forall_inv_tail L)|exact (Forall_inv_tail O2)]].
    destruct (map_keys us acts (snd (fst t'))) as [u'|] eqn:E'; constructor; [|constructor]. cbn [fst]. eapply map_keys_mono; [exact MN|exact O3|exact L1|exact (Forall_inv L)|exact E|exact E'].
Qed.
End Sel.

Lemma sorted_self : forall (l : list (list Z * list Z)), StronglySorted lex_lt (List.map fst l) \/ Forall (fun r => fst r = []) l -> stable_sort_of l l.
Proof.
  intros l H. split; [apply Permutation_refl|]. split; [|reflexivity]. destruct H as [H|H].
  - remember (List.map fst l) as ks eqn:E. revert l E. induction H as [|k ks H IH F]; intros [|r l] E; try discriminate; [constructor|]. injection E as -> ->. constructor; [apply IH; reflexivity|].
    apply Forall_forall. intros r' I. rewrite Forall_forall in F. right. apply F. apply in_map. exact I.
  - induction H as [|r l E H IH]; constructor; [exact IH|]. eapply Forall_impl; [|exact H]. intros r' E'. left. congruence.
Qed.

(** ** C17: a mapped or filtered read selects records *)

(** The records [recs] of a symbol as the object [st] shows them with [reqs], after the
    start of the reading was answered with [r] and left [s1]: [out] are the records that pass, in some
    order, and in increasing order of what is shown if no filter is asked for or no two
    labels share a number; the others are listed as errors, each with the offending
    indices, or the first of them, negated. *)
Definition shows_selection (z : zlib) (st : gst) (dim : Z) (reqs : list request) (wt rt : list Z) (recs : list (list Z * list Z)) (r : resp) (s1 : gst) : Prop :=
  exists f P R out everywhere, translates wt rt f /\ selects z st reqs f recs P R /\ Permutation P out /\
    (Forall (fun q => ~ filtered q) reqs \/ numbered_apart z st -> stable_sort_of P out) /\
    (r = ret_i 1 [zlen out] \/ r = ret_i 1 [zlen recs]) /\
    forall buf, dim <= zlen buf -> map_reads z buf s1 (as_read (fun x => x) None out) (fun st4 =>
      exists ms, Forall2 (fun q m => marked z st everywhere reqs (fst q) (fst m) /\ snd m = snd q) R ms /\
        errors_listed z st4 (fold_left add_refused (List.map NotInDomain ms) []) /\ (forall e, errors z st e -> errors z st4 e)).

Lemma with_first_keys : forall recs prev, List.map (fun t : triple => snd (fst t)) (with_first prev recs) = List.map fst recs.
Proof. induction recs as [|[k v] recs IH]; intros prev; [reflexivity|]. cbn [with_first List.map fst snd]. f_equal. apply IH. Qed.
Lemma store_keys : forall wt recs, List.map fst (List.map (store_rec wt) recs) = List.map fst recs.
Proof. intros wt recs. rewrite map_map. reflexivity. Qed.

Lemma noted_listed : forall neg st rej e, error_list (noted neg st rej e) =
  fold_left add_refused (List.map NotInDomain (List.map (fun t : triple => (neg (snd (fst t)), value_of st (snd t))) rej)) (error_list e).
Proof.
  intros neg st rej. unfold noted. induction rej as [|t rej IH]; intros e; [reflexivity|]. cbn [fold_left List.map]. rewrite IH, note_dom_list. reflexivity.
Qed.

Lemma starts_exec : forall z n reqs c, starts n reqs c -> (length reqs <= 20)%nat ->
  exists doms, (length reqs <= length doms)%nat /\ firstn (length reqs) doms = List.map code reqs /\ forall st, exec z c st = read_start z n doms fr_map_data st.
Proof.
  intros z n reqs c S L. destruct S as [F|acts E].
  - exists strict. split; [unfold strict; rewrite repeat_length; exact L|]. split; [|reflexivity].
    assert (X : forall m (l : list request), (length l <= m)%nat -> Forall (fun r => r = UserNumber) l -> firstn (length l) (repeat 0 m) = List.map code l).
    { clear. induction m as [|m IH]; intros [|r l] L F; try reflexivity; [cbn in L; lia|]. cbn [length firstn repeat List.map]. rewrite (Forall_inv F). cbn [code]. f_equal. apply IH; [cbn in L; lia|exact (Forall_inv_tail F)]. }
    apply X; assumption.
  - exists acts. split; [|auto]. apply (f_equal (@length Z)) in E. rewrite firstn_length, map_length in E. lia.
Qed.

Lemma ready_read : forall z st st1 n dim typ wt recs t rt reqs c, holds z st1 n dim typ wt recs -> tabs st1 t rt -> g_mode st1 = fr_init ->
  g_dic st1 = g_dic st -> g_env st1 = g_env st -> g_err st1 = g_err st -> map_obj st -> some_record dim recs -> no_acronyms wt recs \/ e_nextacr (g_env st) <= 0 ->
  Forall (fun kv => Forall (fun k => exists u, user_number z st k u) (fst kv)) recs -> length reqs = Z.to_nat dim -> Forall (request_ok z st) reqs -> starts n reqs c ->
  exists r s1, exec z c st1 = Done (r, s1) /\ shows_selection z st dim reqs wt rt recs r s1.
Proof.
  intros z st st1 n dim typ wt recs t rt reqs c (WL & G & D & TY & F & tab & k & nm & sy & Q & ZN & SD & ST & B) TB M ED EE ER MO SR NA IT LR OK SC.
  destruct (requests_fit z st MO reqs OK) as (acts & DA & FT & NX). pose proof (Forall2_length _ _ _ FT) as LA.
  destruct (starts_exec z n reqs c SC ltac:(lia)) as (doms & LD & FD & EX).
  set (us := d_uels (g_dic st)).
  assert (IT2 : Forall (fun r : list Z * list Z => length (fst r) = length reqs /\ Forall (in_table us) (fst r)) recs).
  { apply Forall_forall. intros r I. rewrite Forall_forall in IT, G. specialize (IT r I). destruct (G r I) as (G1 & _). split; [congruence|]. eapply Forall_impl; [|exact IT]. intros x (u & U).
    apply user_number_iff in U. destruct U as (s & U). apply znth_Some in U. unfold in_table, us. lia. }
  destruct (map_start z F n sy us acts) with (tab := tab) (k := k) (st := st1) (nm := nm) (recs := List.map (store_rec wt) recs) (doms := doms) as (cc & s1 & out & neg & PR & BG & AL & RD).
  - lia.
  - apply Forall_forall. intros a I. clear - FT I. induction FT as [|r0 a0 rs' as' [F1 _ _] FT IH]; [destruct I|]. destruct I as [<-|I]; [exact F1|exact (IH I)].
  - lia.
  - exact Q.
  - exact M.
  - unfold us. rewrite ED. reflexivity.
  - exact ZN.
  - rewrite ST. unfold dt_alias, dt_equ in *. lia.
  - exact B.
  - intros [X Y]. apply map_eq_nil in Y. destruct SR as [SR|SR]; [lia|contradiction].
  - lia.
  - rewrite ED, SD, <- LR, FD. exact DA.
  - rewrite SD, <- LR, FD. exact NX.
  - apply Forall_forall. intros r I. apply in_map_iff in I. destruct I as (q & <- & I). rewrite Forall_forall in IT2. exact (proj2 (IT2 q I)).
  - destruct NA as [NA|NA]; [right|left; rewrite EE; exact NA].
    pose proof (items_plain st1 t rt wt (Z.to_nat dim) recs (repeat INDEX_INITIAL (sy_dim sy)) WL TB G NA) as X.
    apply Forall_forall. intros q I. rewrite Forall_forall in X. specialize (X (stored q) (in_map _ _ _ I)). destruct q as [[af ks] vs]. exact X.
  - set (todo := with_first (repeat INDEX_INITIAL (sy_dim sy)) (List.map (store_rec wt) recs)) in *.
    assert (VO : forall vs, value_of st1 vs = value_of st vs) by (intros vs; unfold value_of; rewrite EE, ED; reflexivity).
    assert (PE : passing us acts st1 todo = passing us acts st todo).
    { unfold passing. apply flat_map_ext. intros q. destruct (map_keys us acts (snd (fst q))); [|reflexivity]. rewrite VO. reflexivity. }
    destruct (sel_exists z st reqs acts wt FT recs (repeat INDEX_INITIAL (sy_dim sy)) IT2) as (R & S1 & S2 & S3). fold todo us in S1, S2.
    rewrite EX. unfold read_start. rewrite PR. cbn [obind].
    assert (CN : sy_count sy = zlen recs).
    { destruct B as (? & ? & ? & ? & ? & _ & _ & _ & _ & _ & CNT & _). rewrite <- CNT. unfold zlen. rewrite map_length. reflexivity. }
    assert (CP : 0 <= cc) by (destruct AL as [(_ & -> & _)|(_ & -> & _)]; [rewrite CN|]; apply zlen_nonneg).
    rewrite (proj2 (Z.leb_le 0 cc) CP). eexists _, s1. split; [reflexivity|].
    exists (sees st wt), (passing us acts st todo), R, out.
    assert (EV : exists ev, forall q, In q R -> marked z st ev reqs (fst q) (neg (fst q))).
    { destruct AL as [(_ & _ & -> & _)|(_ & _ & ->)]; [exists true|exists false]; intros q I; rewrite Forall_forall in S3; destruct (S3 q I) as [L1 L2]; apply (marked_iff z st reqs acts FT (fst q) L1 L2). }
    destruct EV as (ev & EV). exists ev.
    split; [intros x U A; eapply sees_plain in TB as [TB _]; [|exact WL|exact U|exact A]; rewrite <- TB; unfold sees; rewrite EE, ED; reflexivity|].
    split; [exact S1|]. rewrite PE in AL. split; [destruct AL as [(-> & _)|((X & _) & _)]; [apply Permutation_refl|exact X]|]. split; [|split].
    + intros AP. destruct AL as [(-> & _ & _ & KO)|(X & _)]; [|exact X]. rewrite ED in KO.
      assert (MN : Forall (mono us) acts).
      { apply Forall_forall. intros a I. rewrite Forall_forall in KO. specialize (KO a I). assert (X : exists r, In r reqs /\ fits z st r a).
        { clear - FT I. induction FT as [|r0 a0 rs' as' F1 FT IH]; [destruct I|]. destruct I as [<-|I]; [exists r0; split; [left; reflexivity|exact F1]|]. destruct (IH I) as (r & A & C). exists r. split; [right; exact A|exact C]. }
        destruct X as (r & IR & FR). apply (ft_mono _ _ _ _ FR); [|exact KO]. destruct AP as [AP|AP]; [left; rewrite Forall_forall in AP; exact (AP r IR)|right; eapply apart_iff; exact AP]. }
      destruct (block_order _ _ _ _ B ltac:(lia)) as [BO1 BO2].
      destruct (passing_sorted z st reqs acts FT todo MN) as [P1 P2].
      * apply Forall_forall. intros q I. apply (in_map (fun t : triple => snd (fst t))) in I. unfold todo in I. rewrite with_first_keys in I. apply in_map_iff in I. destruct I as (x & X & I).
        rewrite Forall_forall in BO1. destruct (BO1 x I) as [X1 _]. rewrite X in X1. rewrite X1. lia.
      * unfold todo. rewrite with_first_keys. destruct BO2 as [BO2|BO2]; [left; lia|right; exact BO2].
      * apply sorted_self. destruct (Nat.eq_dec (length acts) 0) as [E|E]; [right; exact (P1 E)|left; exact (P2 E)].
    + destruct AL as [(_ & -> & _)|(_ & -> & _)]; [right; rewrite CN; reflexivity|left; reflexivity].
    + intros buf LB. apply RD; [unfold zlen in LB; lia|]. intros st4 MD.
      exists (List.map (fun q => (neg (fst q), snd q)) R). split; [|split].
      * clear - EV. induction R as [|q R IH]; constructor; [split; [apply EV; left; reflexivity|reflexivity]|]. apply IH. intros x I. apply EV. right. exact I.
      * pose proof (listed_to z st4) as X. rewrite (md_err _ _ _ MD), noted_listed in X. cbn [error_list r_list set_r_list] in X.
        replace (List.map (fun q => (neg (fst q), snd q)) R) with (List.map (fun t0 : triple => (neg (snd (fst t0)), value_of st1 (snd t0))) (failing us acts todo)).
        -- apply X. rewrite (md_mode _ _ _ MD). destruct (bg_mode _ _ BG) as [-> | ->]; reflexivity.
        -- rewrite S2, map_map. apply map_ext. intros q. rewrite VO. reflexivity.
      * intros e E. apply errors_iff in E. apply errors_iff. rewrite (md_err _ _ _ MD), noted_tot, <- E, <- ER. reflexivity.
Qed.

Lemma wrote_opened : forall z st2 n dim typ wt recs, wrote z st2 n dim typ wt recs -> map_obj st2.
Proof.
  intros z st2 n dim typ wt recs W. destruct (wrote_reopened _ _ _ _ _ _ _ W) as (name & prod & compr & cs & rs & st & RO).
  destruct (reopened_tables _ _ _ _ _ _ _ _ RO) as (_ & _ & _ & _ & _ & _ & _ & _ & O & _). eapply opened_map. exact O.
Qed.

(** The symbol is read after any calls [rcs], whenever reading it can be started. *)
Theorem C17_selection : forall z st2 n dim typ wt recs rcs rrs st3 reqs c r s1, wrote z st2 n dim typ wt recs -> some_record dim recs ->
  then_calls z rcs rrs st2 st3 -> no_acronyms wt recs \/ no_numbering z st3 ->
  Forall (fun kv => Forall (fun k => exists u, user_number z st3 k u) (fst kv)) recs ->
  zlen reqs = dim -> Forall (request_ok z st3) reqs -> starts n reqs c ->
  exec z c st3 = Done (r, s1) -> r_code r = 1 ->
  shows_selection z st3 dim reqs wt (reader_values rcs rrs standard_values) recs r s1.
Proof.
  intros z st2 n dim typ wt recs rcs rrs st3 reqs c r s1 W SR TC NA IT LR OK SC E C. destruct (wrote_holds _ _ _ _ _ _ _ W) as (H & T & _ & _).
  destruct (tabs_then _ _ _ _ _ _ _ TC T) as (t & T3). apply (holds_then _ _ _ _ _ _ _ _ _ _ TC) in H.
  pose proof (map_obj_during _ _ _ _ (then_during _ _ _ _ _ TC) (wrote_opened _ _ _ _ _ _ _ W)) as MO.
  pose proof H as (HL & HG & HD & HT & F & tab & k & nm & sy & Q & HX).
  destruct (starts_exec z n reqs c SC ltac:(unfold zlen in LR; lia)) as (doms & LD & FD & EX).
  rewrite EX in E. unfold read_start in E. destruct (prepare_symbol_read z n doms fr_map_data st3) as [[cc s]|] eqn:P; [|discriminate]. cbn [obind] in E. injection E as <- <-.
  cbn [r_code ret_i] in C. destruct (Z.leb_spec 0 cc) as [LE|]; [|discriminate].
  destruct (start_from _ _ _ _ _ _ _ _ _ _ (proj1 MO) Q P LE) as (st1 & Q1 & M1 & P1 & E1 & E2 & E3).
  destruct (ready_read z st3 st1 n dim typ wt recs t (reader_values rcs rrs standard_values) reqs c) as (r' & s' & EX' & SS).
  - split; [exact HL|]. split; [exact HG|]. split; [exact HD|]. split; [exact HT|]. exists F, tab, k, nm, sy. split; [exact Q1|exact HX].
  - destruct T3 as (T31 & T32 & T33 & T34). unfold tabs. rewrite E1. auto.
  - exact M1.
  - exact E2.
  - exact E1.
  - exact E3.
  - exact MO.
  - exact SR.
  - destruct NA as [NA|NA]; [left; exact NA|right; eapply no_numbering_env; exact NA].
  - exact IT.
  - unfold zlen in LR. lia.
  - exact OK.
  - exact SC.
  - rewrite EX in EX'. unfold read_start in EX'. rewrite P1 in EX'. cbn [obind] in EX'. rewrite (proj2 (Z.leb_le 0 cc) LE) in EX'. injection EX' as <- <-.
    exact SS.
Qed.

(** A read can be started right after the file was opened, and right after a read, a
    registration of labels or the definition of a filter was ended. *)
Definition can_start (rcs : list call) (rrs : list resp) : Prop :=
  rcs = [] \/ exists cs c rs, rcs = cs ++ [c] /\ rrs = rs ++ [ret 1] /\ In c [gdxDataReadDone; gdxUELRegisterDone; gdxFilterRegisterDone].
Lemma can_start_mode : forall z F tab k rcs rrs a b, then_calls z rcs rrs a b -> can_start rcs rrs -> g_mode a = fr_init -> reads_file z F tab k a -> g_mode b = fr_init.
Proof.
  intros z F tab k rcs rrs a b [FA R] [->|(cs & c & rs & -> & -> & IN)] M Q.
  - cbn in R. injection R as _ <-. exact M.
  - destruct (run_split _ _ _ _ _ _ R) as (ra & sm & rb & R1 & R2 & ER).
    pose proof (run_length _ _ _ _ _ R2) as L2. destruct rb as [|rb [|? ?]]; try discriminate L2. apply app_inj_tail in ER. destruct ER as [<- <-].
    destruct (run_cons _ _ _ _ _ _ R2) as (r' & s' & rs' & E & R3 & ER). injection ER as <- _. cbn in R3. injection R3 as _ ->.
    apply Forall_app in FA. destruct FA as [FA _]. assert (TC : then_calls z cs rs a sm) by (split; assumption).
    destruct IN as [<-|[<-|[<-|[]]]].
    + eapply done_ready. exact E.
    + pose proof (reads_during _ _ _ _ _ _ _ (then_during _ _ _ _ _ TC) Q) as [[RM|[_ RM]] _ _ _ _ _ _ _ _ _]; cbn [exec] in E; unfold register_done, checked in E.
      * destruct (mode_in (g_mode sm) _) eqn:MI; [|discriminate]. exfalso. cbn in RM. clear - RM MI. destruct (g_mode sm); cbn in MI; try discriminate; intuition discriminate.
      * destruct (mode_in (g_mode sm) _) eqn:MI; [|discriminate]. injection E as <-. exact RM.
    + cbn [exec] in E. unfold filter_register_done, checked in E. destruct (mode_in (g_mode sm) _); [|discriminate]. destruct (cur_filter sm) as [g|]; [|discriminate]. cbn [obind] in E.
      destruct (map_status (g_dic sm)) as [ms d]. injection E as <-. reflexivity.
Qed.
Theorem C17_selection_can_be_read : forall z st2 n dim typ wt recs rcs rrs st3 reqs c, wrote z st2 n dim typ wt recs -> some_record dim recs ->
  then_calls z rcs rrs st2 st3 -> can_start rcs rrs -> no_acronyms wt recs \/ no_numbering z st3 ->
  Forall (fun kv => Forall (fun k => exists u, user_number z st3 k u) (fst kv)) recs ->
  zlen reqs = dim -> Forall (request_ok z st3) reqs -> starts n reqs c ->
  exists r s1, exec z c st3 = Done (r, s1) /\ r_code r = 1 /\ shows_selection z st3 dim reqs wt (reader_values rcs rrs standard_values) recs r s1.
Proof.
  intros z st2 n dim typ wt recs rcs rrs st3 reqs c W SR TC CS NA IT LR OK SC. destruct (wrote_holds _ _ _ _ _ _ _ W) as (H & T & M & _).
  destruct (tabs_then _ _ _ _ _ _ _ TC T) as (t & T3). pose proof (holds_then _ _ _ _ _ _ _ _ _ _ TC H) as H3.
  pose proof (map_obj_during _ _ _ _ (then_during _ _ _ _ _ TC) (wrote_opened _ _ _ _ _ _ _ W)) as MO.
  pose proof H as (HL & HG & HD & HT & F & tab & k & nm & sy & Q & HX). pose proof (can_start_mode _ _ _ _ _ _ _ _ TC CS M Q) as M3.
  destruct (ready_read z st3 st3 n dim typ wt recs t (reader_values rcs rrs standard_values) reqs c) as (r' & s' & EX' & SS); try assumption; try reflexivity.
  - destruct NA as [NA|NA]; [left; exact NA|right; eapply no_numbering_env; exact NA].
  - unfold zlen in LR. lia.
  - exists r', s'. split; [exact EX'|]. split; [|exact SS]. destruct SS as (f & P & R & out & ev & _ & _ & _ & _ & [-> | ->] & _); reflexivity.
Qed.

(** ** C16: the order *)

Lemma map_reads_unique : forall z l buf s P l' P', map_reads z buf s l P -> map_reads z buf s l' P' -> l = l'.
Proof.
  intros z. induction l as [|[[af k] v] l IH]; intros buf s P [|[[af' k'] v'] l'] P' A B; cbn [map_reads] in A, B.
  - reflexivity.
  - destruct A as (s1 & E1 & _), B as (s2 & E2 & _). rewrite E1 in E2. discriminate.
  - destruct A as (s1 & E1 & _), B as (s2 & E2 & _). rewrite E1 in E2. discriminate.
  - destruct A as (s1 & E1 & A), B as (s2 & E2 & B). rewrite E1 in E2. injection E2 as -> -> -> ->.
    f_equal. eapply IH; [apply (A k')|apply (B k')]; apply firstn_all.
Qed.

Lemma shown_fun : forall z st reqs k u v, shown_keys z st reqs k u -> shown_keys z st reqs k v -> u = v.
Proof.
  intros z st. induction reqs as [|r reqs IH]; intros [|k ks] [|u us] [|v vs] A B; cbn in A, B; try contradiction; [reflexivity|]. destruct A as [A1 A2], B as [B1 B2].
  f_equal; [|eapply IH; eassumption]. destruct r as [| |f l]; cbn in A1, B1; [congruence| |]; destruct A1 as [A1 _], B1 as [B1 _]; apply user_number_iff in A1, B1; destruct A1 as (s & A1), B1 as (t & B1); congruence.
Qed.
Lemma shown_apart : forall z st reqs k k' u, numbered_apart z st -> Forall (request_ok z st) reqs -> shown_keys z st reqs k u -> shown_keys z st reqs k' u -> k = k'.
Proof.
  intros z st reqs k k' u NA OK. revert k k' u. induction OK as [|r reqs OK F IH]; intros [|k ks] [|k' ks'] [|u us] A B; cbn in A, B; try contradiction; [reflexivity|]. destruct A as [A1 A2], B as [B1 B2].
  f_equal; [|eapply IH; eassumption]. destruct r as [| |f l]; cbn in A1, B1; [congruence| |]; destruct A1 as [A1 A3], B1 as [B1 B3].
  - eapply NA; eassumption.
  - eapply NA; [eassumption|eassumption|]. destruct (filter_is_holds _ _ _ _ OK) as [(h & l' & s & _ & _ & RG) _]. rewrite Forall_forall in RG. apply RG. exact A3.
Qed.
Lemma sel_in : forall z st reqs f recs P R, selects z st reqs f recs P R -> forall u v, In (u, v) P <-> exists k w, In (k, w) recs /\ shown_keys z st reqs k u /\ v = List.map f w.
Proof.
  intros z st reqs f recs P R S. induction S as [|k v us recs P R SK S IH|k v recs P R NS S IH]; intros u x.
  - split; [intros []|intros (k & w & [] & _)].
  - cbn [In]. rewrite IH. split.
    + intros [E|(k' & w & I & X)]; [injection E as <- <-; exists k, v; auto|exists k', w; auto].
    + intros (k' & w & [E|I] & SK' & ->); [left; injection E as <- <-; rewrite (shown_fun _ _ _ _ _ _ SK' SK); reflexivity|right; eauto].
  - cbn [In]. rewrite IH. split.
    + intros (k' & w & I & X). exists k', w; auto.
    + intros (k' & w & [E|I] & SK' & ->); [injection E as <- <-; contradiction (NS _ SK')|eauto].
Qed.
Lemma sel_nodup : forall z st reqs f recs P R, selects z st reqs f recs P R -> (forall k k' u, shown_keys z st reqs k u -> shown_keys z st reqs k' u -> In k (List.map fst recs) -> In k' (List.map fst recs) -> k = k') ->
  NoDup (List.map fst recs) -> NoDup (List.map fst P).
Proof.
  intros z st reqs f recs P R S. induction S as [|k v us recs P R SK S IH|k v recs P R NS S IH]; intros J ND; cbn [List.map] in *; inversion ND as [|? ? N1 N2]; subst; [constructor| |].
  - constructor; [|apply IH; [|exact N2]; intros a b u A B I1 I2; apply (J a b u A B); right; assumption]. cbn [fst] in *. intros I. apply in_map_iff in I. destruct I as ((u & x) & E & I). cbn [fst] in E. subst u.
    apply (sel_in _ _ _ _ _ _ _ S) in I. destruct I as (k' & w & I & SK' & _). apply N1. rewrite (J k k' us SK SK'); [apply in_map_iff; exists (k', w); auto|left; reflexivity|right; apply in_map_iff; exists (k', w); auto].
  - apply IH; [|exact N2]. intros a b u A B I1 I2. apply (J a b u A B); right; assumption.
Qed.
Lemma sorted_strict : forall (l : list (list Z * list Z)), StronglySorted (fun a b => lex_le (fst a) (fst b)) l -> NoDup (List.map fst l) -> StronglySorted lex_lt (List.map fst l).
Proof.
  intros l S. induction S as [|r l S IH F]; intros ND; cbn [List.map] in *; [constructor|]. inversion ND as [|? ? N1 N2]; subst. constructor; [exact (IH N2)|].
  apply Forall_forall. intros k I. apply in_map_iff in I. destruct I as (r' & <- & I). rewrite Forall_forall in F. destruct (F r' I) as [E|E]; [|exact E].
  contradiction N1. rewrite E. apply in_map. exact I.
Qed.
Lemma as_read_keys : forall f prev recs, List.map (fun t : Z * list Z * list Z => snd (fst t)) (as_read f prev recs) = List.map fst recs.
Proof. intros f prev recs. revert prev. induction recs as [|[k v] recs IH]; intros prev; [reflexivity|]. cbn [as_read List.map fst snd]. f_equal. apply IH. Qed.

Lemma holds_sorted : forall z st n dim typ wt recs, holds z st n dim typ wt recs -> dim = 0 \/ StronglySorted lex_lt (List.map fst recs).
Proof.
  intros z st n dim typ wt recs (_ & _ & D & _ & F & tab & k & nm & sy & _ & _ & SD & _ & B). destruct (block_order _ _ _ _ B ltac:(lia)) as [_ [X|X]]; [left; lia|right].
  change (List.map (fun kv : list Z * list Z => (fst kv, List.map (classify (wt ++ tail_values)) (snd kv))) recs) with (List.map (store_rec wt) recs) in X. rewrite store_keys in X. exact X.
Qed.
Lemma sorted_nodup : forall l, StronglySorted lex_lt l -> NoDup l.
Proof. intros l S. induction S as [|k l S IH F]; constructor; [|exact IH]. intros I. rewrite Forall_forall in F. exact (lex_lt_irrefl k (F k I)). Qed.

(** The records of a mapped or filtered read come in increasing order of what is shown: in
    strictly increasing order if no two labels share a user number. *)
Theorem C16_increasing : forall z st2 n dim typ wt recs rcs rrs st3 reqs c r s1 buf l P, wrote z st2 n dim typ wt recs -> some_record dim recs ->
  then_calls z rcs rrs st2 st3 -> no_acronyms wt recs \/ no_numbering z st3 ->
  Forall (fun kv => Forall (fun k => exists u, user_number z st3 k u) (fst kv)) recs ->
  zlen reqs = dim -> Forall (request_ok z st3) reqs -> starts n reqs c ->
  exec z c st3 = Done (r, s1) -> r_code r = 1 -> dim <= zlen buf -> map_reads z buf s1 l P ->
  let keys := List.map (fun t : Z * list Z * list Z => snd (fst t)) l in
  (Forall (fun q => ~ filtered q) reqs \/ numbered_apart z st3 -> StronglySorted lex_le keys) /\
  (numbered_apart z st3 -> dim <> 0 -> StronglySorted lex_lt keys).
Proof.
  intros z st2 n dim typ wt recs rcs rrs st3 reqs c r s1 buf l P W SR TC NA IT LR OK SC E C LB MR keys.
  destruct (C17_selection _ _ _ _ _ _ _ _ _ _ _ _ _ _ W SR TC NA IT LR OK SC E C) as (f & Pa & R & out & ev & _ & SE & PE & SO & _ & RD).
  specialize (RD buf LB). pose proof (map_reads_unique _ _ _ _ _ _ _ MR RD) as ->. unfold keys. rewrite as_read_keys. split.
  - intros AP. destruct (SO AP) as (_ & S & _). clear - S. induction S as [|q out S IH F]; cbn [List.map]; constructor; [exact IH|].
    apply Forall_forall. intros k I. apply in_map_iff in I. destruct I as (q' & <- & I). rewrite Forall_forall in F. exact (F q' I).
  - intros AP ND. destruct (SO (or_intror AP)) as (_ & S & _). apply sorted_strict; [exact S|]. eapply Permutation_NoDup; [apply Permutation_map; exact PE|].
    eapply sel_nodup; [exact SE| |].
    + intros k k' u A B _ _. eapply shown_apart; eassumption.
    + destruct (wrote_holds _ _ _ _ _ _ _ W) as (H & _). apply sorted_nodup. destruct (holds_sorted _ _ _ _ _ _ _ H) as [X|X]; [contradiction|exact X].
Qed.

(** ** C09: what was written with user numbers *)

Lemma first_of_nodup : forall l k v, NoDup (List.map fst l) -> (first_of k v l <-> In (k, v) l).
Proof.
  intros l k v ND. split; [intros (a & b & -> & _); apply in_or_app; right; left; reflexivity|]. intros I. apply in_split in I. destruct I as (a & b & ->). exists a, b. split; [reflexivity|].
  rewrite map_app in ND. cbn [List.map fst] in ND. apply NoDup_remove_2 in ND. intros X. apply ND. apply in_or_app. left. exact X.
Qed.
Lemma Forall2_In_r : forall {A B} (Q : A -> B -> Prop) l m, Forall2 Q l m -> forall b, In b m -> exists a, In (a, b) (combine l m) /\ Q a b.
Proof. intros A B Q l m F. induction F as [|a b l m X F IH]; intros y I; [destruct I|]. destruct I as [<-|I]; [exists a; split; [left; reflexivity|exact X]|]. destruct (IH y I) as (x & I1 & I2). exists x. split; [right; exact I1|exact I2]. Qed.
Lemma Forall2_combine : forall {A B} (Q : A -> B -> Prop) l m, Forall2 Q l m -> forall a b, In (a, b) (combine l m) -> Q a b.
Proof. intros A B Q l m F. induction F as [|a b l m X F IH]; intros x y I; [destruct I|]. destruct I as [E|I]; [injection E as <- <-; exact X|exact (IH _ _ I)]. Qed.

(** The reader has given every label that stands behind a user number of the writer this
    number; the indices of the records are distinct. *)
Theorem C09_user_numbers_come_back : forall z sp sd sq st2 n dim typ wt doms handed rcs rrs st3, map_written z sp sd sq st2 n dim typ wt doms handed -> dim <> 0 \/ handed <> [] ->
  then_calls z rcs rrs st2 st3 -> can_start rcs rrs -> Forall (fun h => Forall (fun x => is_acronym wt x = false) (snd h)) handed \/ no_numbering z st3 ->
  (forall u k, stands_for z sp u k -> user_number z st3 k u) -> NoDup (List.map fst handed) ->
  exists items f out s1 c, Forall2 (user_numbered z sp) handed items /\ translates wt (reader_values rcs rrs standard_values) f /\
    exec z (gdxDataReadMapStart n) st3 = Done (ret_i 1 [c], s1) /\
    (forall u v, In (u, v) out <-> exists h it, In (h, it) (combine handed items) /\ allowed doms (fst it) = true /\ u = fst h /\ v = List.map f (snd h)) /\
    StronglySorted lex_lt (List.map fst out) /\
    forall buf, dim <= zlen buf -> map_reads z buf s1 (as_read (fun x => x) None out) (fun st4 => errors_listed z st4 []).
Proof.
  intros z sp sd sq st2 n dim typ wt doms handed rcs rrs st3 W NE TC CS NA UN ND.
  destruct (map_holds _ _ _ _ _ _ _ _ _ _ _ W) as (items & recs & UB & SO & H & _).
  assert (WR : wrote z st2 n dim typ wt recs) by (apply wrote_now; right; right; exists sp, sd, sq, doms, handed, items; auto).
  assert (LEN : Forall (fun it => length (fst it) = Z.to_nat dim) items).
  { destruct (map_settled _ _ _ _ _ _ _ _ _ _ _ W) as (items' & UB' & d & wrb & rs & _ & _ & IL & _).
    pose proof (Forall2_fun _ _ _ _ (user_numbered_fun z sp) UB UB') as <-. eapply Forall_impl; [|exact IL]. intros q X. apply X. }
  assert (KEEP : forall q, In q recs -> In q items /\ allowed doms (fst q) = true).
  { intros q I. pose proof (once_records _ _ _ (fun q => In q items /\ allowed doms (fst q) = true) SO) as X. assert (Y : Forall (fun q => In q items /\ allowed doms (fst q) = true) (in_domains doms items)).
    { apply Forall_forall. intros x J. apply filter_In in J. exact J. }
    specialize (X Y). rewrite Forall_forall in X. exact (X q I). }
  pose proof (map_obj_during _ _ _ _ (then_during _ _ _ _ _ TC) (wrote_opened _ _ _ _ _ _ _ WR)) as MO.
  assert (NUM : forall u k, stands_for z sp u k -> user_number z st3 k u /\ 0 <= u).
  { intros u k SF. pose proof (UN u k SF) as X. split; [exact X|]. apply user_number_iff in X. destruct X as (s & X). destruct (ui_num _ _ (proj1 MO) _ _ X) as [Y|Y]; [|cbn in Y; lia].
    cbn [snd] in Y. subst u. destruct SF as (t & (s' & A) & _). cbn [exec] in A. unfold get_uel in A. destruct (negb _); [discriminate|].
    change (im_get (d_usr (g_dic sp)) (-1)) with (-1) in A. discriminate. }
  set (reqs := repeat UserNumber (Z.to_nat dim)).
  assert (SK : forall h it, user_numbered z sp h it -> length (fst it) = Z.to_nat dim -> shown_keys z st3 reqs (fst it) (fst h)).
  { intros [hk hv] [ik iv] [A _] L. cbn [fst] in *. unfold reqs. rewrite <- L. clear - A NUM. induction A as [|u k us ks X A IH]; [exact I|]. cbn [length repeat shown_keys]. split; [cbn; apply NUM; exact X|exact IH]. }
  assert (IT : Forall (fun kv => Forall (fun k => exists u, user_number z st3 k u) (fst kv)) recs).
  { apply Forall_forall. intros q I. destruct (KEEP q I) as [I1 _]. destruct (Forall2_In_r _ _ _ UB q I1) as (h & _ & (A & _)). clear - A NUM. induction A as [|u k us ks X A IH]; constructor; [exists u; apply NUM; exact X|exact IH]. }
  assert (NDI : NoDup (List.map fst items)).
  { clear - UB ND SK LEN. induction UB as [|h it handed items X UB IH]; [constructor|]. cbn [List.map] in *. inversion ND as [|? ? N1 N2]; subst. constructor; [|exact (IH N2 (Forall_inv_tail LEN))].
    intros I. apply N1. apply in_map_iff in I. destruct I as (it' & E & I). destruct (Forall2_In_r _ _ _ UB it' I) as (h' & I' & X').
    pose proof (SK h it X (Forall_inv LEN)) as S1. pose proof (Forall_inv_tail LEN) as L2. rewrite Forall_forall in L2. pose proof (SK h' it' X' (L2 it' I)) as S2. rewrite E in S2.
    rewrite (shown_fun _ _ _ _ _ _ S1 S2). apply in_map. apply in_combine_l in I'. exact I'. }
  assert (RIN : forall q, In q recs <-> In q items /\ allowed doms (fst q) = true).
  { intros [k v]. split; [apply KEEP|]. intros [I A]. assert (J : In (k, v) (in_domains doms items)) by (apply filter_In; auto). destruct SO as [S1 S2]. destruct (Z.eq_dec dim 0) as [E|E]; [rewrite (S1 E); exact J|].
    apply (proj2 (S2 E)). apply first_of_nodup; [|exact J]. unfold in_domains. clear - NDI. induction items as [|q items IH]; [constructor|]. cbn [List.map filter] in *. inversion NDI as [|? ? N1 N2]; subst. destruct (allowed doms (fst q)); [|exact (IH N2)].
    cbn [List.map]. constructor; [|exact (IH N2)]. intros I. apply N1. apply in_map_iff in I. destruct I as (x & X & I). apply filter_In in I. rewrite <- X. apply in_map. apply I. }
  assert (SR : some_record dim recs).
  { destruct (Z.eq_dec dim 0) as [E|E]; [right|left; exact E]. destruct NE as [X|X]; [contradiction|]. rewrite (proj1 SO E), (domains_empty dim); [|exact LEN|exact E]. intros ->. inversion UB; subst. apply X. reflexivity. }
  assert (NA' : no_acronyms wt recs \/ no_numbering z st3).
  { destruct NA as [NA|NA]; [left|right; exact NA]. apply Forall_forall. intros q I. destruct (KEEP q I) as [I1 _]. destruct (Forall2_In_r _ _ _ UB q I1) as (h & IH & (_ & E)). rewrite E. rewrite Forall_forall in NA. apply NA. eapply in_combine_l. exact IH. }
  assert (LR : zlen reqs = dim) by (unfold reqs, zlen; rewrite repeat_length; destruct H as (_ & _ & D & _); lia).
  assert (UR : Forall (fun r => r = UserNumber) reqs) by (unfold reqs; clear; induction (Z.to_nat dim); constructor; auto).
  destruct (C17_selection_can_be_read z st2 n dim typ wt recs rcs rrs st3 reqs (gdxDataReadMapStart n) WR SR TC CS NA' IT LR) as (r & s1 & E & RC & f & P & R & out & ev & TR & SE & PE & SS & RR & RD).
  - eapply Forall_impl; [|exact UR]. intros q ->. exact I.
  - apply starts_map. exact UR.
  - assert (RN : R = []).
    { assert (X : forall k w, In (k, w) recs -> exists u, shown_keys z st3 reqs k u).
      { intros k w I. apply RIN in I. destruct I as [I A]. destruct (Forall2_In_r _ _ _ UB _ I) as (h & IH & X). exists (fst h). rewrite Forall_forall in LEN. exact (SK h (k, w) X (LEN _ I)). }
      clear - SE X. induction SE as [|k v us recs P R SKK S IH|k v recs P R NS S IH]; [reflexivity|apply IH; intros k' w I; apply (X k' w); right; exact I|]. destruct (X k v (or_introl eq_refl)) as (u & Y). contradiction (NS u Y). }
    assert (NF : Forall (fun q => ~ filtered q) reqs) by (eapply Forall_impl; [|exact UR]; intros q ->; exact (fun x => x)).
    assert (OUT : forall u v, In (u, v) P <-> exists h it, In (h, it) (combine handed items) /\ allowed doms (fst it) = true /\ u = fst h /\ v = List.map f (snd h)).
    { intros u v. rewrite (sel_in _ _ _ _ _ _ _ SE). split.
      - intros (k & w & I & SKU & ->). apply RIN in I. destruct I as [I A]. destruct (Forall2_In_r _ _ _ UB _ I) as (h & IH & X). exists h, (k, w). split; [exact IH|]. split; [exact A|].
        rewrite Forall_forall in LEN. pose proof (SK h (k, w) X (LEN _ I)) as S2. cbn [fst] in S2. rewrite (shown_fun _ _ _ _ _ _ SKU S2). split; [reflexivity|]. destruct X as [_ X]. cbn [snd] in X. rewrite X. reflexivity.
      - intros (h & [k w] & IH & A & -> & ->). pose proof (in_combine_r _ _ _ _ IH) as I. exists k, w. split; [apply RIN; auto|]. pose proof (Forall2_combine _ _ _ UB _ _ IH) as X. rewrite Forall_forall in LEN.
        split; [exact (SK h (k, w) X (LEN _ I))|]. destruct X as [_ X]. cbn [snd] in X. rewrite X. reflexivity. }
    assert (NDP : NoDup (List.map fst P)).
    { eapply sel_nodup; [exact SE| |].
      - intros k k' u A B I1 I2. assert (X : forall k, In k (List.map fst recs) -> shown_keys z st3 reqs k u -> exists h it, In (h, it) (combine handed items) /\ fst h = u /\ fst it = k).
        { intros k0 I0 S0. apply in_map_iff in I0. destruct I0 as ([k1 w] & E1 & I0). cbn [fst] in E1. subst k1. apply RIN in I0. destruct I0 as [I0 _]. destruct (Forall2_In_r _ _ _ UB _ I0) as (h & IH & X). exists h, (k0, w). split; [exact IH|]. split; [|reflexivity].
          rewrite Forall_forall in LEN. pose proof (SK h (k0, w) X (LEN _ I0)) as S2. eapply shown_fun; eassumption. }
        destruct (X k I1 A) as (h & it & J1 & J2 & <-). destruct (X k' I2 B) as (h' & it' & J1' & J2' & <-).
        assert (HH : h = h').
        { apply in_combine_l in J1, J1'. clear - ND J1 J1' J2 J2'. induction handed as [|x l IH]; [destruct J1|]. cbn [List.map] in ND. inversion ND as [|? ? N1 N2]; subst.
          destruct J1 as [->|J1], J1' as [->|J1']; [reflexivity|exfalso; apply N1; apply in_map_iff; exists h'; auto|exfalso; apply N1; apply in_map_iff; exists h; auto|auto]. }
        subst h'. pose proof (Forall2_combine _ _ _ UB _ _ J1) as X1. pose proof (Forall2_combine _ _ _ UB _ _ J1') as X2. f_equal. eapply user_numbered_fun; eassumption.
      - destruct (Z.eq_dec dim 0) as [E0|E0].
        + rewrite (proj1 SO E0). unfold in_domains. clear - NDI. induction items as [|q items IH]; [constructor|]. cbn [List.map filter] in *. inversion NDI as [|? ? N1 N2]; subst. destruct (allowed doms (fst q)); [|exact (IH N2)].
          cbn [List.map]. constructor; [|exact (IH N2)]. intros I. apply N1. apply in_map_iff in I. destruct I as (x & X & I). apply filter_In in I. rewrite <- X. apply in_map. apply I.
        + apply sorted_nodup. apply (proj2 SO E0). }
    assert (CC : exists cnt, r = ret_i 1 [cnt]) by (destruct RR as [-> | ->]; eexists; reflexivity). destruct CC as (cnt & ->).
    exists items, f, out, s1, cnt. split; [exact UB|]. split; [exact TR|]. split; [exact E|]. split; [|split].
    + intros u v. rewrite <- OUT. split; intros I; [eapply Permutation_in; [apply Permutation_sym; exact PE|exact I]|eapply Permutation_in; [exact PE|exact I]].
    + destruct (SS (or_introl NF)) as (_ & S & _). apply sorted_strict; [exact S|]. eapply Permutation_NoDup; [apply Permutation_map; exact PE|exact NDP].
    + intros buf LB. specialize (RD buf LB). subst R. revert RD. generalize (as_read (fun x : Z => x) None out). clear. intros l. revert buf s1. induction l as [|[[af k] v] l IH]; intros buf s1; cbn [map_reads].
      * intros (st' & E & ms & F2 & EL & _). exists st'. split; [exact E|]. inversion F2; subst. exact EL.
      * intros (st1 & E & X). exists st1. split; [exact E|]. intros buf' B. apply IH. exact (X buf' B).
Qed.

(** ** Concrete cases *)

(** The variable [v] of the file of PropRead.v, with the records (a, B), (a, c) and (B, a).
    The labels a and B get the user numbers 5 and 3, c gets none, filter 7 has number 3. *)
Definition mp_calls : list call :=
  [gdxUELRegisterMapStart; gdxUELRegisterMap 5 (s2z "A"); gdxUELRegisterMap 3 (s2z "b"); gdxUELRegisterDone].
Definition mp_answers : list resp := [ret 1; ret 1; ret 1; ret 1].
Definition mp_a : gst := state_of (run rle_zlib mp_calls rc_read).
Definition mp_define : list call := [gdxFilterRegisterStart 7; gdxFilterRegister 3; gdxFilterRegister 4; gdxFilterRegisterDone].
Definition mp_b : gst := state_of (run rle_zlib mp_define mp_a).
Definition mp_reqs : list request := [UserNumber; InFilter 7 [3]].
Definition mp_s1 : gst := state_of (exec rle_zlib (gdxDataReadFilteredStart 2 [0; 7]) mp_b).
Definition mp_rcs : list call := mp_calls ++ mp_define.
Definition mp_rrs : list resp := mp_answers ++ [ret 1; ret 1; ret 0; ret 1].

Lemma rc_opened : opened_to_read rle_zlib rc_read.
Proof. exists rc_closed, (s2z "v.gdx"), 0, (ret_i 1 [0]). split; [vm_compute; reflexivity|reflexivity]. Qed.
Lemma mp_reading : in_reading rle_zlib mp_calls mp_a.
Proof. exists rc_read. split; [exact rc_opened|]. apply (during_test _ _ _ mp_answers); vm_compute; reflexivity. Qed.
Lemma mp_filter : filter_is rle_zlib 7 [3] mp_b.
Proof.
  exists mp_calls, mp_a, [3; 4], [ret 1; ret 0], mp_b. split; [exact mp_reading|]. split; [|split; [reflexivity|apply later_now]].
  exists (ret 1), (state_of (exec rle_zlib (gdxFilterRegisterStart 7) mp_a)), (state_of (run rle_zlib (List.map gdxFilterRegister [3; 4]) (state_of (exec rle_zlib (gdxFilterRegisterStart 7) mp_a)))), (ret 1).
  split; [vm_compute; reflexivity|]. split; [reflexivity|]. split; vm_compute; reflexivity.
Qed.
Lemma mp_then : then_calls rle_zlib mp_rcs mp_rrs rc_read mp_b.
Proof.
  split; [|vm_compute; reflexivity]. apply Forall_forall. intros c I. split.
  - assert (X : forallb session_call mp_rcs = true) by (vm_compute; reflexivity). rewrite forallb_forall in X. exact (X c I).
  - apply call_okb_ok. assert (X : forallb call_okb mp_rcs = true) by (vm_compute; reflexivity). rewrite forallb_forall in X. exact (X c I).
Qed.
Lemma mp_numbers : user_number rle_zlib mp_b 1 5 /\ user_number rle_zlib mp_b 2 3 /\ user_number rle_zlib mp_b 3 (-1).
Proof. split; [exists (s2z "a"); ans|]. split; [exists (s2z "B"); ans|exists (s2z "c"); ans]. Qed.
Lemma mp_apart : numbered_apart rle_zlib mp_b.
Proof.
  assert (U : List.map snd (d_uels (g_dic mp_b)) = [5; 3; -1]) by (vm_compute; reflexivity). revert U. generalize mp_b. intros b U k k' u A B P. apply user_number_iff in A, B. destruct A as (s & A), B as (t & B).
  assert (X : forall i s u, znth (d_uels (g_dic b)) i = Some (s, u) -> znth [5; 3; -1] i = Some u) by (intros i x y H; rewrite <- U, znth_map, H; reflexivity).
  apply X in A, B. pose proof (znth_Some _ _ _ A) as RA. pose proof (znth_Some _ _ _ B) as RB. cbn in RA, RB.
  assert (KA : k - 1 = 0 \/ k - 1 = 1 \/ k - 1 = 2) by lia. assert (KB : k' - 1 = 0 \/ k' - 1 = 1 \/ k' - 1 = 2) by lia.
  destruct KA as [KA|[KA|KA]], KB as [KB|[KB|KB]]; rewrite KA in A; rewrite KB in B; cbn in A, B; injection A as A; injection B as B; lia.
Qed.
Lemma mp_start : exists s1, exec rle_zlib (gdxDataReadFilteredStart 2 [0; 7]) mp_b = Done (ret_i 1 [1], s1).
Proof. ans. Qed.
Lemma mp_known : Forall (fun kv => Forall (fun k => exists u, user_number rle_zlib mp_b k u) (fst kv)) rc_records.
Proof.
  destruct mp_numbers as (N1 & N2 & N3). revert N1 N2 N3. generalize mp_b. intros b N1 N2 N3.
  apply Forall_cons; [cbn [fst]; apply Forall_cons; [eauto|apply Forall_cons; [eauto|constructor]]|].
  apply Forall_cons; [cbn [fst]; apply Forall_cons; [eauto|apply Forall_cons; [eauto|constructor]]|].
  apply Forall_cons; [cbn [fst]; apply Forall_cons; [eauto|apply Forall_cons; [eauto|constructor]]|constructor].
Qed.
Example C17_case : exists s1, exec rle_zlib (gdxDataReadFilteredStart 2 [0; 7]) mp_b = Done (ret_i 1 [1], s1) /\
  shows_selection rle_zlib mp_b 2 mp_reqs rc_values standard_values rc_records (ret_i 1 [1]) s1.
Proof.
  pose proof mp_start as (s1 & E). exists s1. split; [exact E|]. pose proof mp_then as TC. pose proof mp_known as MK. pose proof mp_filter as MF.
  assert (RO : Forall (request_ok rle_zlib mp_b) mp_reqs) by (apply Forall_cons; [exact I|apply Forall_cons; [exact MF|constructor]]).
  revert E TC MK RO. generalize mp_b. intros b E TC MK RO.
  refine (C17_selection rle_zlib rc_read 2 2 dt_var rc_values rc_records mp_rcs mp_rrs b mp_reqs _ (ret_i 1 [1]) s1 (wrote_now _ _ _ _ _ _ _ (or_introl rc_wrote)) _ TC _ MK eq_refl RO _ E eq_refl).
  - left. discriminate.
  - left. repeat constructor.
  - apply starts_filtered. reflexivity.
Qed.
(** What is selected: only (a, B), shown as (5, 3). *)
Example C17_case_selects : forall f P R, selects rle_zlib mp_b mp_reqs f rc_records P R ->
  List.map fst P = [[5; 3]] /\ List.map fst R = [[1; 3]; [2; 1]].
Proof.
  pose proof mp_numbers as (N1 & N2 & N3). revert N1 N2 N3. generalize mp_b. intros b N1 N2 N3 f P R S.
  assert (FUN : forall k u v, user_number rle_zlib b k u -> user_number rle_zlib b k v -> u = v).
  { intros k u v A B. apply user_number_iff in A, B. destruct A as (s & A), B as (t & B). congruence. }
  assert (K1 : forall us, shown_keys rle_zlib b mp_reqs [1; 2] us -> us = [5; 3]).
  { intros [|u [|v [|? ?]]] H; cbn in H; try tauto. destruct H as ((A & _) & (B & _) & _). rewrite (FUN _ _ _ A N1), (FUN _ _ _ B N2). reflexivity. }
  assert (K1' : shown_keys rle_zlib b mp_reqs [1; 2] [5; 3]) by (cbn; split; [split; [exact N1|lia]|split; [split; [exact N2|left; reflexivity]|exact I]]).
  assert (K2 : forall us, ~ shown_keys rle_zlib b mp_reqs [1; 3] us).
  { intros [|u [|v [|? ?]]] H; cbn in H; try tauto. destruct H as (_ & (B & C) & _). rewrite (FUN _ _ _ B N3) in C. destruct C as [C|[]]. discriminate. }
  assert (K3 : forall us, ~ shown_keys rle_zlib b mp_reqs [2; 1] us).
  { intros [|u [|v [|? ?]]] H; cbn in H; try tauto. destruct H as (_ & (B & C) & _). rewrite (FUN _ _ _ B N1) in C. destruct C as [C|[]]. discriminate. }
  unfold rc_records in S. inversion S as [|k v us l P1 R1 SK S1|k v l P1 R1 NS S1]; subst; [|contradiction (NS _ K1')]. apply K1 in SK. subst us.
  inversion S1 as [|k v us l P2 R2 SK S2|k v l P2 R2 NS S2]; subst; [contradiction (K2 _ SK)|]. inversion S2 as [|k v us l P3 R3 SK S3|k v l P3 R3 NS' S3]; subst; [contradiction (K3 _ SK)|].
  inversion S3; subst. split; reflexivity.
Qed.
(** All records in user numbers: the object has to sort them. *)
Definition mp_all : list call := [gdxUELRegisterMapStart; gdxUELRegisterMap 5 (s2z "A"); gdxUELRegisterMap 3 (s2z "b"); gdxUELRegisterMap 9 (s2z "c"); gdxUELRegisterDone].
Definition mp_c : gst := state_of (run rle_zlib mp_all rc_read).
Definition mp_c1 : gst := state_of (exec rle_zlib (gdxDataReadMapStart 2) mp_c).
Example C16_case : run rle_zlib [gdxDataReadMapStart 2; gdxDataReadMap [0; 0]; gdxDataReadMap [3; 5]; gdxDataReadMap [5; 3]; gdxDataReadMap [5; 9]] mp_c =
  Done ([ret_i 1 [3]; ret_iv 1 [1; 3; 5] [0; dbl_1; dbl_2_5; dbl_1; dbl_1]; ret_iv 1 [1; 5; 3] [dbl_2_5; 9099492520756278684; 9102314902109837365; 9103996120383649180; 0];
         ret_iv 1 [2; 5; 9] standard_values; ret 0],
        state_of (run rle_zlib [gdxDataReadMap [0; 0]; gdxDataReadMap [3; 5]; gdxDataReadMap [5; 3]; gdxDataReadMap [5; 9]] mp_c1)).
Proof. vm_compute. reflexivity. Qed.
Example C16_case_filtered : forall s1 l P, exec rle_zlib (gdxDataReadFilteredStart 2 [0; 7]) mp_b = Done (ret_i 1 [1], s1) -> map_reads rle_zlib [0; 0] s1 l P ->
  StronglySorted lex_lt (List.map (fun t : Z * list Z * list Z => snd (fst t)) l).
Proof.
  intros s1 l P E MR. pose proof mp_then as TC. pose proof mp_known as MK. pose proof mp_filter as MF. pose proof mp_apart as AP.
  assert (RO : Forall (request_ok rle_zlib mp_b) mp_reqs) by (apply Forall_cons; [exact I|apply Forall_cons; [exact MF|constructor]]).
  revert E TC MK RO AP. generalize mp_b. intros b E TC MK RO AP.
  refine (proj2 (C16_increasing rle_zlib rc_read 2 2 dt_var rc_values rc_records mp_rcs mp_rrs b mp_reqs _ (ret_i 1 [1]) s1 [0; 0] l P (wrote_now _ _ _ _ _ _ _ (or_introl rc_wrote)) _ TC _ MK eq_refl RO _ E eq_refl _ MR) AP _).
  - left. discriminate.
  - left. repeat constructor.
  - apply starts_filtered. reflexivity.
  - discriminate.
  - discriminate.
Qed.

(** The order is lost if a label gets a user number that the filter already lets pass: a, B
    and c have the numbers 20, 10 and 20, and a got its number after the filter was defined. *)
Definition sh_users : list call := [gdxUELRegisterMapStart; gdxUELRegisterMap 10 (s2z "b"); gdxUELRegisterMap 20 (s2z "c"); gdxUELRegisterDone].
Definition sh_define : list call := [gdxFilterRegisterStart 7; gdxFilterRegister 10; gdxFilterRegister 20; gdxFilterRegisterDone].
Definition sh_later : list call := [gdxUELRegisterMapStart; gdxUELRegisterMap 20 (s2z "a"); gdxUELRegisterDone].
Definition sh_a : gst := state_of (run rle_zlib sh_users rc_read).
Definition sh_b : gst := state_of (run rle_zlib sh_define sh_a).
Definition sh_c : gst := state_of (run rle_zlib sh_later sh_b).
Lemma sh_then : then_calls rle_zlib (sh_users ++ sh_define ++ sh_later) (repeat (ret 1) 11) rc_read sh_c.
Proof.
  split; [|vm_compute; reflexivity]. apply Forall_forall. intros c I. split.
  - assert (X : forallb session_call (sh_users ++ sh_define ++ sh_later) = true) by (vm_compute; reflexivity). rewrite forallb_forall in X. exact (X c I).
  - apply call_okb_ok. assert (X : forallb call_okb (sh_users ++ sh_define ++ sh_later) = true) by (vm_compute; reflexivity). rewrite forallb_forall in X. exact (X c I).
Qed.
Lemma later_calls : forall z f cs a rs b, forallb (fun c => session_call c && call_okb c && negb (filter_call c)) cs = true -> run z cs a = Done (rs, b) -> later z f a b.
Proof.
  intros z f. induction cs as [|c cs IH]; intros a rs b H R.
  - cbn in R. injection R as _ <-. apply later_now.
  - cbn [forallb] in H. rewrite !Bool.andb_true_iff in H. destruct H as (((H1 & H2) & H3) & H4). destruct (run_cons _ _ _ _ _ _ R) as (r & s & rs' & E & R' & _).
    eapply later_call; [exact H1|apply call_okb_ok; exact H2|apply Bool.negb_true_iff; exact H3|exact E|]. eapply IH; eassumption.
Qed.
Lemma sh_filter : filter_is rle_zlib 7 [10; 20] sh_c.
Proof.
  exists sh_users, sh_a, [10; 20], [ret 1; ret 1], sh_b. split; [|split; [|split; [reflexivity|]]].
  - exists rc_read. split; [exact rc_opened|]. apply (during_test _ _ _ (repeat (ret 1) 4)); vm_compute; reflexivity.
  - exists (ret 1), (state_of (exec rle_zlib (gdxFilterRegisterStart 7) sh_a)), (state_of (run rle_zlib (List.map gdxFilterRegister [10; 20]) (state_of (exec rle_zlib (gdxFilterRegisterStart 7) sh_a)))), (ret 1).
    split; [vm_compute; reflexivity|]. split; [reflexivity|]. split; vm_compute; reflexivity.
  - apply (later_calls _ _ sh_later _ (repeat (ret 1) 3)); vm_compute; reflexivity.
Qed.
Theorem C16_shared_numbers_refuted : exists z st2 n dim typ wt recs rcs rrs st3 reqs c s1 s2 v1 v2 v3 k1 k2 k3, wrote z st2 n dim typ wt recs /\ some_record dim recs /\
  then_calls z rcs rrs st2 st3 /\ can_start rcs rrs /\ no_acronyms wt recs /\ zlen reqs = dim /\ Forall (request_ok z st3) reqs /\ starts n reqs c /\
  exec z c st3 = Done (ret_i 1 [3], s1) /\
  run z [gdxDataReadMap [0; 0]; gdxDataReadMap k1; gdxDataReadMap k2; gdxDataReadMap k3] s1 = Done ([ret_iv 1 (1 :: k1) v1; ret_iv 1 (2 :: k2) v2; ret_iv 1 (1 :: k3) v3; ret 0], s2) /\
  lex_lt k3 k1.
Proof.
  exists rle_zlib, rc_read, 2, 2, dt_var, rc_values, rc_records, (sh_users ++ sh_define ++ sh_later), (repeat (ret 1) 11), sh_c, [InFilter 7 [10; 20]; AsStored], (gdxDataReadFilteredStart 2 [7; -2]).
  exists (state_of (exec rle_zlib (gdxDataReadFilteredStart 2 [7; -2]) sh_c)).
  exists (state_of (run rle_zlib [gdxDataReadMap [0; 0]; gdxDataReadMap [20; 2]; gdxDataReadMap [20; 3]; gdxDataReadMap [10; 1]] (state_of (exec rle_zlib (gdxDataReadFilteredStart 2 [7; -2]) sh_c)))).
  exists [dbl_2_5; 9099492520756278684; 9102314902109837365; 9103996120383649180; 0], standard_values, [0; dbl_1; dbl_2_5; dbl_1; dbl_1], [20; 2], [20; 3], [10; 1].
  split; [apply wrote_now; left; exact rc_wrote|]. split; [left; discriminate|]. split; [exact sh_then|].
  split; [right; exists (sh_users ++ sh_define ++ [gdxUELRegisterMapStart; gdxUELRegisterMap 20 (s2z "a")]), gdxUELRegisterDone, (repeat (ret 1) 10); split; [reflexivity|]; split; [reflexivity|right; left; reflexivity]|].
  split; [repeat constructor|]. split; [reflexivity|].
  split; [apply Forall_cons; [exact sh_filter|apply Forall_cons; [exact I|constructor]]|].
  split; [apply starts_filtered; reflexivity|]. split; [vm_compute; reflexivity|]. split; [vm_compute; reflexivity|]. left. reflexivity.
Qed.

(** A parameter written with the user numbers 5 and 2, and read with them. *)
Definition mw_pre : list call := [gdxUELRegisterMapStart; gdxUELRegisterMap 5 (s2z "x"); gdxUELRegisterMap 2 (s2z "y"); gdxUELRegisterDone].
Definition mw_body : list call := [gdxDataWriteMap [5] [dbl_1]; gdxDataWriteMap [2] [dbl_2_5]].
Definition mw_start : call := gdxDataWriteMapStart (s2z "p") (s2z "") 1 dt_par 0.
Definition mw_seg : list call := mw_start :: ([] ++ mw_body) ++ [gdxDataWriteDone].
Definition mw_0 : gst := state_of (exec rle_zlib (gdxOpenWriteEx (s2z "w.gdx") (s2z "test") 0) (new_object [])).
Definition mw_sp : gst := state_of (run rle_zlib mw_pre mw_0).
Definition mw_s1 : gst := state_of (exec rle_zlib mw_start mw_sp).
Definition mw_sd : gst := state_of (run rle_zlib mw_body mw_s1).
Definition mw_sq : gst := state_of (exec rle_zlib gdxDataWriteDone mw_sd).
Definition mw_closed : gst := state_of (exec rle_zlib gdxClose mw_sq).
Definition mw_read : gst := state_of (exec rle_zlib (gdxOpenReadEx (s2z "w.gdx") 0) mw_closed).
Definition mw_file : list Z := match disk_get (e_disk (g_env mw_closed)) (s2z "w.gdx") with Some F => F | None => [] end.
Definition mw_users : list call := [gdxUELRegisterMapStart; gdxUELRegisterMap 2 (s2z "y"); gdxUELRegisterMap 5 (s2z "x"); gdxUELRegisterDone].
Definition mw_st3 : gst := state_of (run rle_zlib mw_users mw_read).
Definition mw_handed : list (list Z * list Z) := [([5], [dbl_1]); ([2], [dbl_2_5])].
Definition mw_rseg : list resp := ret 1 :: ([] ++ [ret 1; ret 1]) ++ [ret 1].
Lemma mw_open : forall cs, calls_okb cs = true -> forall rs st, run rle_zlib cs mw_0 = Done (rs, st) -> writes rle_zlib (s2z "w.gdx") (s2z "test") 0 cs rs st.
Proof.
  intros cs OK rs st R. apply writes_made. exists (new_object []), mw_0, (ret_i 1 [0]). split; [vm_compute; reflexivity|]. split; [reflexivity|]. split; [apply str_okb_ok; vm_compute; reflexivity|].
  split; [apply calls_okb_ok; exact OK|exact R].
Qed.
Lemma mw_parts : in_parts rle_zlib (s2z "w.gdx") (s2z "test") 0 mw_pre mw_sp mw_seg mw_rseg mw_sq [] mw_sq mw_read.
Proof.
  exists (repeat (ret 1) 4), []. split; [apply mw_open; vm_compute; reflexivity|]. split; [vm_compute; reflexivity|]. split; [reflexivity|].
  split; [apply mw_open; vm_compute; reflexivity|]. split; [vm_compute; reflexivity|]. exists (ret 0), mw_closed, mw_file, mw_closed, 0.
  split; [vm_compute; reflexivity|]. split; [vm_compute; reflexivity|]. split; [apply counters_fit_test; vm_compute; reflexivity|].
  split; [vm_compute; reflexivity|]. split; [split; vm_compute; reflexivity|]. split; [vm_compute; reflexivity|]. split; [reflexivity|].
  vm_compute. reflexivity.
Qed.
Lemma mw_written : map_written rle_zlib mw_sp mw_sd mw_sq mw_read 1 1 dt_par standard_values [None] mw_handed.
Proof.
  exists (s2z "w.gdx"), (s2z "test"), 0, mw_pre, (s2z "p"), (s2z ""), 0, [], mw_body, (ret 1), [], [ret 1; ret 1], (ret 1), [], mw_sq, mw_s1.
  split; [exact mw_parts|]. split; [vm_compute; reflexivity|]. split; [vm_compute; reflexivity|]. split; [reflexivity|]. split; [reflexivity|]. split; [repeat constructor|].
  split; [exists 2; ans|]. split; [ans|]. split; [|reflexivity]. left. auto.
Qed.
Lemma numbers_test : forall (p : Z -> Z -> bool) l n i v, (forall m x, nth_error l m = Some x -> forallb (fun q => p (fst q) (snd q)) (combine (List.map Z.of_nat (seq n (length l))) l) = true -> p (Z.of_nat (n + m)) x = true) ->
  forallb (fun q => p (fst q) (snd q)) (combine (List.map Z.of_nat (seq n (length l))) l) = true -> znth l i = Some v -> n = O -> p i v = true.
Proof. intros p l n i v H F Z0 ->. unfold znth in Z0. destruct (Z.ltb_spec i 0); [discriminate|]. specialize (H (Z.to_nat i) v Z0 F). replace (Z.of_nat (0 + Z.to_nat i)) with i in H by lia. exact H. Qed.
Lemma numbers_at : forall (p : Z -> Z -> bool) l n m x, nth_error l m = Some x -> forallb (fun q => p (fst q) (snd q)) (combine (List.map Z.of_nat (seq n (length l))) l) = true -> p (Z.of_nat (n + m)) x = true.
Proof.
  intros p. induction l as [|y l IH]; intros n [|m] x H F; try discriminate; cbn [length seq List.map combine forallb fst snd nth_error] in *; apply Bool.andb_true_iff in F; destruct F as [F1 F2].
  - injection H as <-. replace (n + 0)%nat with n by lia. exact F1.
  - replace (n + S m)%nat with (S n + m)%nat by lia. eapply IH; eassumption.
Qed.
Lemma mw_same : forall u k, stands_for rle_zlib mw_sp u k -> user_number rle_zlib mw_st3 k u.
Proof.
  assert (C : forallb (fun q => (snd q <? 1) || ((fst q =? 5) && (snd q =? 1)) || ((fst q =? 2) && (snd q =? 2)))
               (combine (List.map Z.of_nat (seq 0 (length (im_cells (d_usr (g_dic mw_sp)))))) (im_cells (d_usr (g_dic mw_sp)))) = true) by (vm_compute; reflexivity).
  assert (T : uel_text (g_dic mw_sp) 1 = Some (s2z "x") /\ uel_text (g_dic mw_sp) 2 = Some (s2z "y")) by (split; vm_compute; reflexivity).
  assert (G1 : exists s, exec rle_zlib (gdxUMFindUEL (s2z "x")) mw_sp = Done (ret_i 1 [1; 5], s)) by ans. assert (G2 : exists s, exec rle_zlib (gdxUMFindUEL (s2z "y")) mw_sp = Done (ret_i 1 [2; 2], s)) by ans.
  assert (N1 : user_number rle_zlib mw_st3 1 5) by (exists (s2z "x"); ans). assert (N2 : user_number rle_zlib mw_st3 2 2) by (exists (s2z "y"); ans).
  revert C T G1 G2 N1 N2. generalize mw_sp mw_st3. intros sp st3 C (T1 & T2) (g1 & G1) (g2 & G2) N1 N2 u k (t & (s & A) & B).
  cbn [exec] in A. unfold get_uel in A. destruct (negb _); [discriminate|]. destruct (Z.leb_spec 1 (im_get (d_usr (g_dic sp)) u)) as [L|L]; [|discriminate].
  unfold im_get in *. destruct (znth (im_cells (d_usr (g_dic sp))) u) as [en|] eqn:ZN; [|lia].
  pose proof (numbers_test (fun i v => (v <? 1) || ((i =? 5) && (v =? 1)) || ((i =? 2) && (v =? 2))) _ O u en (numbers_at _ _ _) C ZN eq_refl) as X. cbv beta in X.
  apply Bool.orb_true_iff in X. destruct X as [X|X]; [apply Bool.orb_true_iff in X; destruct X as [X|X]; [lia|]|].
  - assert (u = 5 /\ en = 1) as [-> ->] by lia. rewrite T1 in A. injection A as <- _. destruct B as (q & s' & B). unfold label_found, answers in B. rewrite G1 in B. injection B as <- _ _. exact N1.
  - assert (u = 2 /\ en = 2) as [-> ->] by lia. rewrite T2 in A. injection A as <- _. destruct B as (q & s' & B). unfold label_found, answers in B. rewrite G2 in B. injection B as <- _ _. exact N2.
Qed.
Lemma mw_then : then_calls rle_zlib mw_users (repeat (ret 1) 4) mw_read mw_st3.
Proof.
  split; [|vm_compute; reflexivity]. apply Forall_forall. intros c I. split.
  - assert (X : forallb session_call mw_users = true) by (vm_compute; reflexivity). rewrite forallb_forall in X. exact (X c I).
  - apply call_okb_ok. assert (X : forallb call_okb mw_users = true) by (vm_compute; reflexivity). rewrite forallb_forall in X. exact (X c I).
Qed.
Example C09_case : exists items f out s1 c, Forall2 (user_numbered rle_zlib mw_sp) mw_handed items /\ translates standard_values standard_values f /\
  exec rle_zlib (gdxDataReadMapStart 1) mw_st3 = Done (ret_i 1 [c], s1) /\
  (forall u v, In (u, v) out <-> exists h it, In (h, it) (combine mw_handed items) /\ allowed [None] (fst it) = true /\ u = fst h /\ v = List.map f (snd h)) /\
  StronglySorted lex_lt (List.map fst out) /\
  forall buf, 1 <= zlen buf -> map_reads rle_zlib buf s1 (as_read (fun x => x) None out) (fun st4 => errors_listed rle_zlib st4 []).
Proof.
  pose proof mw_written as W. pose proof mw_then as TC. pose proof mw_same as MS. revert W TC MS. generalize mw_sp mw_sd mw_sq mw_read mw_st3. intros sp sd sq rd st3 W TC MS.
  refine (C09_user_numbers_come_back rle_zlib sp sd sq rd 1 1 dt_par standard_values [None] mw_handed mw_users (repeat (ret 1) 4) st3 W _ TC _ _ MS _).
  - left. discriminate.
  - right. exists [gdxUELRegisterMapStart; gdxUELRegisterMap 2 (s2z "y"); gdxUELRegisterMap 5 (s2z "x")], gdxUELRegisterDone, (repeat (ret 1) 3). split; [reflexivity|]. split; [reflexivity|right; left; reflexivity].
  - left. repeat constructor.
  - apply NoDup_cons; [intros [X|[]]; discriminate X|]. apply NoDup_cons; [intros []|constructor].
Qed.

Print Assumptions C17_selection.
Print Assumptions C17_selection_can_be_read.
Print Assumptions C16_increasing.
Print Assumptions C16_shared_numbers_refuted.
Print Assumptions C09_user_numbers_come_back.
