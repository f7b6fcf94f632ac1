(** * Properties of labels and user numbers: C11, C12, C13, C14, C15, C47 *)

From Coq Require Import String Permutation Sorted.
From Verif Require Import Base Prim Values Records LinkedData StrHash IntMap Strings AStream BufStream State
  FileImage ApiCore ApiFile ApiWrite ApiRead Api FileFacts BlockFacts StreamFacts OpenFacts DicInv WriteInv WriteSteps Journal WriteCalls WriteTrace
  FileFlow Footprint SessInv Sessions Vocab PropErr Reopen PropNames PropMeta Segment PropTexts PropDomain LabelFacts Buffered Contents Domains Wrote
  PropRead PropStrings Readers Cases.
Open Scope Z_scope.
Open Scope list_scope.

(** ** Specification *)

(** An object that writes a file, or that reads a file written with this library, after the
    calls [cs] (of any kind but opening and closing files). *)
Definition working (z : zlib) (cs : list call) (st : gst) : Prop :=
  in_writing z cs st \/
  exists name prod compr ws rs stw st0, reopened z name prod compr ws rs stw st0 /\ during z cs st0 st.

(** gdxUMUelGet: label number [k] is [s], and its user number is [u] (-1: it has none). *)
Definition entry (z : zlib) (st : gst) (k : Z) (s : str) (u : Z) : Prop := answers z st (gdxUMUelGet k) (ret_is 1 [u] [s]).
(** gdxUMFindUEL: the label [s] is number [k] and has the user number [u]. *)
Definition finds (z : zlib) (st : gst) (s : str) (k u : Z) : Prop := answers z st (gdxUMFindUEL s) (ret_i 1 [k; u]).
(** gdxGetUEL: the label with user number [u] is [s]. *)
Definition gets (z : zlib) (st : gst) (u : Z) (s : str) : Prop := answers z st (gdxGetUEL u) (ret_s 1 [s]).
(** gdxUMUelInfo: the number of labels, the highest user number. *)
Definition totals (z : zlib) (st : gst) (c h : Z) : Prop := answers z st gdxUMUelInfo (ret_i 1 [c; h]).
(** Labels and user numbers are the same. *)
Definition same_labels (z : zlib) (a b : gst) : Prop :=
  (forall k s u, entry z b k s u <-> entry z a k s u) /\ (forall s k u, finds z b s k u <-> finds z a s k u) /\
  (forall u s, gets z b u s <-> gets z a u s) /\ (forall c h, totals z b c h <-> totals z a c h).
(** The rules for labels. *)
Definition well_formed (s : str) : Prop := zlen s <= 63 /\ (forall c, In c s -> 32 <= c) /\ ~ (In 39 s /\ In 34 s).
(** The calls that register the label [s]. *)
Definition registers (c : call) (s : str) : Prop :=
  c = gdxUELRegisterRaw s \/ c = gdxUELRegisterStr s \/ exists n, c = gdxUELRegisterMap n s.

(** ** The tables behind the answers *)

Definition high_inv (d : dic) : Prop := im_high (d_usr d) = 0 \/ exists i s, znth (d_uels d) i = Some (s, im_high (d_usr d)).

Lemma high_step : forall c d d' M, datom c d d' -> user_inv M d -> high_inv d -> high_inv d'.
Proof.
  intros c d d' M A [I1 I2 I3 I4 I5] H. unfold high_inv in *.
  destruct (uels_cases _ _ _ A) as [[E U]|[(s & LB & G1 & G2 & F & E & U)|[(n & e & s & o & w & RT & G1 & G2 & F & E0 & E & U)|
    [(en & n & m & e & NB & E0 & NG & S0 & R & MM & E & U)|(n & e & E0 & E & U)]]]]; rewrite ?E, ?U.
  - exact H.
  - destruct H as [H|(i & t & H)]; [left; exact H|right]. exists i, t. rewrite znth_app_l by (apply znth_Some in H; lia). exact H.
  - destruct H as [H|(i & t & H)]; [left; exact H|right]. destruct (Z.eq_dec i n) as [->|N].
    + exists n, s. rewrite znth_zset_eq by (eapply znth_Some; exact E0). rewrite E0 in H. injection H as ->. reflexivity.
    + exists i, t. rewrite znth_zset_neq by congruence. exact H.
  - destruct (im_set_spec (d_usr d) n en I1 R) as (m' & S' & J1 & J2 & J3). rewrite S0 in S'. injection S' as <-.
    pose proof (znth_Some _ _ _ E0) as RG. rewrite J3. destruct (Z.le_gt_cases (im_high (d_usr d)) n) as [L|L].
    + right. exists (en - 1), (fst e). rewrite znth_zset_eq by assumption. do 2 f_equal. lia.
    + destruct H as [H|(i & t & H)]; [lia|]. right. exists i, t. rewrite znth_zset_neq; [|intros Q; rewrite <- Q, E0 in H; injection H as ->; cbn in NG; lia].
      rewrite H. do 2 f_equal. lia.
  - destruct H as [H|(i & t & H)]; [left; exact H|right]. destruct (I2 n) as [X|(B & s0 & X)].
    + rewrite X in E0. apply znth_Some in E0. lia.
    + rewrite E0 in X. injection X as ->. exists i, t. destruct (Z.eq_dec i (im_get (d_usr d) n - 1)) as [->|N].
      * rewrite znth_zset_eq by (eapply znth_Some; exact E0). rewrite E0 in H. cbn [fst]. exact H.
      * rewrite znth_zset_neq by congruence. exact H.
Qed.

Record at_work (M : bool) (st : gst) : Prop := mkAW {
  aw_labels : labels_inv (g_dic st);
  aw_users : user_inv M (g_dic st);
  aw_un : d_un (g_dic st) = true;
  aw_high : high_inv (g_dic st);
  aw_stream : has_stream st
}.

Lemma at_work_during : forall z M cs a b, during z cs a b -> (M = true \/ no_map cs) -> at_work M a -> at_work M b.
Proof.
  intros z M cs a b D MM [L U N H S0].
  assert (X : labels_inv (g_dic b) /\ user_inv M (g_dic b) /\ d_un (g_dic b) = true /\ high_inv (g_dic b)).
  { eapply (during_dic z (fun d => labels_inv d /\ user_inv M d /\ d_un d = true /\ high_inv d)) with (cs := cs) (a := a); [|exact D|auto].
    intros c d d' I A (I1 & I2 & I3 & I4). split; [eapply labels_step; eassumption|]. split.
    - eapply user_step; [|exact A|exact I2]. destruct MM as [MM|MM]; [left; exact MM|right]. unfold no_map in MM. rewrite Forall_forall in MM. exact (MM c I).
    - split; [|eapply high_step; eassumption]. destruct (flags_keep _ _ _ A) as (_ & E & _). congruence. }
  destruct X as (X1 & X2 & X3 & X4). constructor; try assumption. eapply during_stream; eassumption.
Qed.

Lemma appended_at : forall z st, appended z st -> at_work false st.
Proof.
  intros z st (name0 & prod & compr & cs0 & rs0 & st0 & F & name & W & CF & AP). destruct (appending_facts _ _ _ _ _ _ _ _ _ _ W CF AP) as (E & M & _).
  destruct (writes_labels _ _ _ _ _ _ _ W) as (L & _). constructor; [| | | |]; rewrite ?E.
  - apply loaded_labels. exact L.
  - apply loaded_user.
  - reflexivity.
  - left. reflexivity.
  - assert (W2 : writes z name prod compr [] [] st) by (eapply writes_added; try eassumption; [constructor|reflexivity]).
    destruct (writes_jinv _ _ _ _ _ _ _ W2) as ((J & [(t & G & [_ PH] & JR)|(_ & D & _)]) & _); [|exfalso; rewrite M in D; unfold data_modes in D; cbn in D; intuition discriminate].
    unfold WriteInv.phase in PH. destruct (gC G).
    + destruct PH as (_ & s & FS & _). exists s. exact FS.
    + destruct PH as ((X & _) & _). rewrite M in X. cbn in X. intuition discriminate.
    + destruct PH as ([X _ _ _ _ _ _] & _). rewrite M in X. cbn in X. intuition discriminate.
Qed.

Lemma working_at : forall z M cs st, working z cs st -> (M = true \/ no_map cs) -> at_work M st.
Proof.
  intros z M cs st W MM.
  assert (WK : forall s, at_work false s -> at_work M s).
  { intros s [A [B1 B2 B3 B4 B5] C D E]. constructor; try assumption. constructor; auto. }
  destruct W as [(st0 & [CR|AP] & D)|(name & prod & compr & ws & rs & stw & st0 & RO & D)]; (eapply at_work_during; [exact D|exact MM|apply WK]).
  - destruct (created_facts _ _ CR) as (_ & HS & _ & _ & _ & mt & uc & E). constructor; [| | | |exact HS]; rewrite E; cbn.
    + split; [intros i j a b H; apply znth_Some in H; unfold zlen in H; cbn in H; lia|intros i e H; apply znth_Some in H; unfold zlen in H; cbn in H; lia].
    + constructor; cbn [d_usr d_uels].
      * apply im_new_inv.
      * intros n. left. apply im_get_new.
      * intros i e H. apply znth_Some in H. unfold zlen in H. cbn in H. lia.
      * intros _ i e H. apply znth_Some in H. unfold zlen in H. cbn in H. lia.
      * intros _ n H. cbn in H. lia.
    + reflexivity.
    + left. reflexivity.
  - exact (appended_at _ _ AP).
  - destruct (reopened_labels _ _ _ _ _ _ _ _ RO) as (A & B & C). constructor; try assumption.
    + left. destruct (reopened_tables _ _ _ _ _ _ _ _ RO) as (E & _). rewrite E. reflexivity.
    + destruct RO as (_ & _ & r & st1 & F & rd & rm & _ & _ & _ & _ & _ & _ & _ & E).
      apply (opened_read_facts z). exists rd, name, rm. eexists. split; [exact E|reflexivity].
Qed.

Lemma entry_iff : forall z st k s u, entry z st k s u <-> znth (d_uels (g_dic st)) (k - 1) = Some (s, u).
Proof.
  intros z st k s u. unfold entry, answers. cbn [exec]. unfold um_uel_get. destruct (znth _ _) as [[t v]|]; split.
  - intros (x & H). injection H as -> -> _. reflexivity.
  - intros H. injection H as -> ->. eauto.
  - intros (x & H). discriminate.
  - discriminate.
Qed.
Lemma entry_label : forall z st k s u, entry z st k s u -> label z st k s.
Proof. intros z st k s u H. exists u. exact H. Qed.

Lemma same_upper : forall s t : str, same_text true s t = true <-> upper s = upper t.
Proof. intros s t. apply (same_text_spec true). Qed.

Lemma good_short : forall s, good_uel s = true -> zlen s <= 63.
Proof. intros s G. apply good_uel_spec in G. apply G. Qed.

Lemma upper_zlen : forall s t : str, upper s = upper t -> zlen s = zlen t.
Proof. intros s t H. unfold zlen. f_equal. apply (f_equal (@length Z)) in H. unfold upper in H. rewrite !map_length in H. exact H. Qed.

Lemma trim_stores : forall s, zlen (trim_right s) <= 255 -> trim_store s = Done (trim_right s).
Proof. intros s L. unfold trim_store. apply Z.leb_le in L. rewrite L, Bool.orb_true_r. reflexivity. Qed.
Lemma trim_stored : forall s t, trim_store s = Done t -> t = trim_right s.
Proof. intros s t H. unfold trim_store in H. destruct (_ || _); [|discriminate]. congruence. Qed.

Lemma find_of_entry : forall d k t u s, labels_inv d -> znth (d_uels d) (k - 1) = Some (t, u) -> upper t = upper s -> uel_find d s = k.
Proof.
  intros d k t u s [D _] E U. unfold uel_find. rewrite (sl_find_unique true _ s (k - 1) (t, u) D E); [lia|]. apply same_upper. exact U.
Qed.
Lemma entry_of_find : forall d s, 0 <= uel_find d s -> exists t u, znth (d_uels d) (uel_find d s - 1) = Some (t, u) /\ upper t = upper s.
Proof.
  intros d s H. unfold uel_find in *. destruct (sl_find true (d_uels d) s) as [m|] eqn:E; [|lia]. destruct (sl_find_Some _ _ _ _ E) as ([t u] & E1 & E2).
  exists t, u. replace (m + 1 - 1) with m by lia. split; [exact E1|]. apply same_upper. exact E2.
Qed.

Lemma finds_iff : forall z M st s k u, at_work M st -> finds z st s k u <-> exists t, entry z st k t u /\ upper t = upper (trim_right s).
Proof.
  intros z M st s k u [L _ N _ _]. unfold finds, answers. cbn [exec]. unfold um_find_uel. cbv zeta. rewrite N. cbn [negb]. split.
  - intros (x & H). destruct (trim_store s) as [t|] eqn:T; [|discriminate]. cbn [obind] in H. apply trim_stored in T. subst t.
    destruct (Z.ltb_spec (uel_find (g_dic st) (trim_right s)) 0) as [|G]; [discriminate|]. destruct (entry_of_find _ _ G) as (t & v & E & U).
    unfold user_map in H. rewrite E in H. cbn [obind snd] in H. injection H as <- <- _. exists t. split; [apply entry_iff; exact E|exact U].
  - intros (t & E & U). apply entry_iff in E. pose proof (find_of_entry _ _ _ _ _ L E U) as F. destruct L as [_ G].
    destruct (G _ _ E) as [G1 _]. apply good_short in G1. cbn [fst] in G1. pose proof (upper_zlen _ _ U). rewrite trim_stores by lia. cbn [obind].
    rewrite F. pose proof (znth_Some _ _ _ E). destruct (Z.ltb_spec k 0); [lia|]. unfold user_map. rewrite E. cbn [obind snd]. eauto.
Qed.
Lemma found_finds : forall z st s k, label_found z st s k <-> exists u, finds z st s k u.
Proof. intros. reflexivity. Qed.

Lemma gets_iff : forall z M st u s, at_work M st -> gets z st u s <-> exists k, 1 <= k /\ im_get (d_usr (g_dic st)) u = k /\ entry z st k s u.
Proof.
  intros z M st u s [L U N _ _]. unfold gets, answers. cbn [exec]. unfold get_uel. cbv zeta. rewrite N. cbn [negb]. split.
  - intros (x & H). destruct (Z.leb_spec 1 (im_get (d_usr (g_dic st)) u)) as [G|G]; [|discriminate].
    destruct (ui_get _ _ U u) as [X|(_ & t & X)]; [lia|]. unfold uel_text in H. rewrite X in H. cbn in H. injection H as <- _.
    exists (im_get (d_usr (g_dic st)) u). split; [exact G|]. split; [reflexivity|]. apply entry_iff. exact X.
  - intros (k & K & G & E). apply entry_iff in E. rewrite G. destruct (Z.leb_spec 1 k); [|lia]. unfold uel_text. rewrite E. cbn. eauto.
Qed.

Lemma totals_iff : forall z M st c h, at_work M st -> totals z st c h <-> c = zlen (d_uels (g_dic st)) /\ h = im_high (d_usr (g_dic st)).
Proof.
  intros z M st c h [L U N _ (x & S0)]. unfold totals, answers. cbn [exec]. unfold um_uel_info. rewrite S0, N. unfold uel_count. split.
  - intros (y & H). injection H as <- <- _. auto.
  - intros [-> ->]. eauto.
Qed.

Lemma same_labels_by : forall z a b, d_uels (g_dic b) = d_uels (g_dic a) -> d_usr (g_dic b) = d_usr (g_dic a) -> d_un (g_dic b) = d_un (g_dic a) ->
  (has_stream a -> has_stream b) -> (has_stream b -> has_stream a) -> same_labels z a b.
Proof.
  intros z a b U S0 N HA HB. unfold same_labels. split; [|split; [|split]].
  - intros k s u. rewrite !entry_iff, U. reflexivity.
  - intros s k u. unfold finds, answers. cbn [exec]. unfold um_find_uel. rewrite N. destruct (d_un (g_dic a)); cbn [negb]; [|split; intros (x & H); discriminate].
    unfold uel_find, user_map. rewrite U. destruct (trim_store s) as [t|]; cbn [obind]; [|split; intros (x & H); discriminate].
    destruct (_ <? 0); [split; intros (x & H); discriminate|]. destruct (znth _ _); cbn [obind]; [|split; intros (x & H); discriminate].
    split; intros (x & H); injection H as <- <- _; eauto.
  - intros u s. unfold gets, answers. cbn [exec]. unfold get_uel. cbv zeta. rewrite N. destruct (d_un (g_dic a)); cbn [negb]; [|split; intros (x & H); discriminate].
    rewrite S0. unfold uel_text. rewrite U. destruct (1 <=? _); [|split; intros (x & H); discriminate].
    destruct (option_map _ _); [|split; intros (x & H); discriminate]. split; intros (x & H); injection H as <- _; eauto.
  - intros c h. unfold totals, answers. cbn [exec]. unfold um_uel_info. rewrite N, S0. unfold uel_count. rewrite U.
    split; intros (x & H).
    + destruct (f_strm (g_fil b)) as [sb|] eqn:EB; [|discriminate]. destruct (HB (ex_intro _ sb EB)) as (sa & ->). destruct (d_un (g_dic a)); [|discriminate].
      injection H as <- <- _. eauto.
    + destruct (f_strm (g_fil a)) as [sa|] eqn:EA; [|discriminate]. destruct (HA (ex_intro _ sa EA)) as (sb & ->). destruct (d_un (g_dic a)); [|discriminate].
      injection H as <- <- _. eauto.
Qed.

(** Registering a label in the table. *)
Lemma uel_add_table : forall s d n d', uel_add s d = (n, d') -> labels_inv d ->
  (d' = d /\ uel_find d s = n /\ 1 <= n /\ exists t u, znth (d_uels d) (n - 1) = Some (t, u) /\ upper t = upper s) \/
  (uel_find d s = -1 /\ n = zlen (d_uels d) + 1 /\ d' = set_d_uels (d_uels d ++ [(s, -1)]) d).
Proof.
  intros s d n d' H L. unfold uel_add in H. destruct (sl_add true (d_uels d) s (-1)) as [l k] eqn:E. injection H as <- <-.
  destruct (sl_add_cases _ _ _ _ _ _ E) as [[-> F]|(-> & F & ->)].
  - left. split; [destruct d; reflexivity|]. pose proof (sl_find_range _ _ _ _ F). unfold uel_find. rewrite F. split; [reflexivity|]. split; [lia|].
    destruct (sl_find_Some _ _ _ _ F) as ([t u] & E1 & E2). exists t, u. replace (k + 1 - 1) with k by lia. split; [exact E1|apply same_upper; exact E2].
  - right. unfold uel_find. rewrite F. auto.
Qed.

(** ** C47: enumeration *)

Theorem C47_enumeration : forall z cs st, working z cs st ->
  exists c h, totals z st c h /\
    (forall k, (exists s u, entry z st k s u) <-> 1 <= k <= c) /\
    (forall k s u, entry z st k s u -> u = -1 \/ 0 <= u <= h) /\
    (h = 0 \/ exists k s, entry z st k s h) /\
    (forall k s u, entry z st k s u -> finds z st s k u) /\
    (forall s k u, finds z st s k u -> exists t, entry z st k t u /\ upper t = upper (trim_right s)) /\
    (forall u s, gets z st u s -> exists k, entry z st k s u).
Proof.
  intros z cs st W. pose proof (working_at z true cs st W (or_introl eq_refl)) as AW. pose proof AW as [L U N H S0].
  exists (zlen (d_uels (g_dic st))), (im_high (d_usr (g_dic st))). split; [apply (totals_iff z true); auto|]. split; [|split; [|split; [|split; [|split]]]].
  - intros k. split.
    + intros (s & u & E). apply entry_iff in E. apply znth_Some in E. lia.
    + intros K. destruct (znth_exists (d_uels (g_dic st)) (k - 1)) as ((s, u) & E); [lia|]. exists s, u. apply entry_iff. exact E.
  - intros k s u E. apply entry_iff in E. apply (ui_num _ _ U _ _ E).
  - destruct H as [H|(i & s & H)]; [left; exact H|right]. exists (i + 1), s. apply entry_iff. replace (i + 1 - 1) with i by lia. exact H.
  - intros k s u E. apply (finds_iff z true st s k u AW). exists s. split; [exact E|]. apply entry_iff in E. destruct L as [_ G]. destruct (G _ _ E) as [_ T]. cbn [fst] in T. rewrite T. reflexivity.
  - intros s k u F. apply (finds_iff z true st s k u AW). exact F.
  - intros u s G. apply (gets_iff z true st u s AW) in G. destruct G as (k & _ & _ & E). eauto.
Qed.

(** ** C11: labels are a dictionary *)

Theorem C11_labels_are_numbered : forall z cs st, working z cs st ->
  exists c h, totals z st c h /\ (forall k, (exists s, label z st k s) <-> 1 <= k <= c) /\
    (forall i j s t, label z st i s -> label z st j t -> upper s = upper t -> i = j) /\
    (forall s k, label_found z st s k <-> exists t, label z st k t /\ upper t = upper (trim_right s)).
Proof.
  intros z cs st W. pose proof (working_at z true cs st W (or_introl eq_refl)) as AW. destruct (C47_enumeration z cs st W) as (c & h & T & E & _).
  exists c, h. split; [exact T|]. split; [|split].
  - intros k. rewrite <- E. split; [intros (s & u & X); exists s, u; exact X|intros (s & u & X); exists s; exists u; exact X].
  - apply (distinct_by_inv z st (aw_labels _ _ AW)).
  - intros s k. rewrite found_finds. split.
    + intros (u & F). apply (finds_iff z true st s k u AW) in F. destruct F as (t & F & X). exists t. split; [exists u; exact F|exact X].
    + intros (t & (u & F) & X). exists u. apply (finds_iff z true st s k u AW). eauto.
Qed.

(** Labels keep their numbers (and, unless renamed, stay). *)
Theorem C11_labels_stay : forall z cs st cs' st' k s, working z cs st -> during z cs' st st' -> no_rename cs' -> label z st k s -> label z st' k s.
Proof.
  intros z cs st cs' st' k s W D NR X. pose proof (working_at z true cs st W (or_introl eq_refl)) as [L _ _ _ _].
  pose proof (at_work_during z true _ _ _ D (or_introl eq_refl) (working_at z true cs st W (or_introl eq_refl))) as [L' _ _ _ _].
  apply label_iff. apply label_iff in X. revert X.
  eapply (during_dic z (fun d => labels_inv d /\ user_inv true d /\ (uel_text (g_dic st) k = Some s -> uel_text d k = Some s))); [|exact D|].
  - intros c d d' I A (I1 & I2 & I3). split; [eapply labels_step; eassumption|]. split; [eapply user_step; [left; reflexivity|exact A|exact I2]|].
    intros X. specialize (I3 X). unfold uel_text in *. unfold no_rename in NR. rewrite Forall_forall in NR. specialize (NR c I).
    destruct (znth (d_uels d) (k - 1)) as [e0|] eqn:E0; [|discriminate]. cbn in I3. injection I3 as <-.
    destruct (uels_cases _ _ _ A) as [[E U]|[(s1 & LB & G1 & G2 & F & E & U)|[(n & e & s1 & o & w & RT & G1 & G2 & F & E1 & E & U)|
      [(en & n & m & e & NB & E1 & NG & S1 & R & MM & E & U)|(n & e & E1 & E & U)]]]]; rewrite E.
    + rewrite E0. reflexivity.
    + rewrite znth_app_l by (apply znth_Some in E0; lia). rewrite E0. reflexivity.
    + destruct RT as (-> & _). discriminate NR.
    + destruct (Z.eq_dec (k - 1) (en - 1)) as [Q|Q].
      * rewrite Q in *. rewrite znth_zset_eq by (eapply znth_Some; exact E1). rewrite E0 in E1. injection E1 as ->. reflexivity.
      * rewrite znth_zset_neq by congruence. rewrite E0. reflexivity.
    + destruct (Z.eq_dec (k - 1) (im_get (d_usr d) n - 1)) as [Q|Q].
      * rewrite Q in *. rewrite znth_zset_eq by (eapply znth_Some; exact E1). rewrite E0 in E1. injection E1 as ->. reflexivity.
      * rewrite znth_zset_neq by congruence. rewrite E0. reflexivity.
  - split; [exact L|]. split; [apply (working_at z true cs st W (or_introl eq_refl))|auto].
Qed.

(** ** Registering a label *)

Lemma set_error_tables : forall e st, g_dic (set_error e st) = g_dic st /\ g_mode (set_error e st) = g_mode st /\ g_fil (set_error e st) = g_fil st /\ g_env (set_error e st) = g_env st /\
  g_wrk (set_error e st) = g_wrk st.
Proof. intros e st. unfold set_error. destruct (e =? 0); repeat split; reflexivity. Qed.

Lemma same_labels_error : forall z e st, same_labels z st (set_error e st).
Proof.
  intros z e st. destruct (set_error_tables e st) as (A & _ & B & _). apply same_labels_by; rewrite ?A; try reflexivity; unfold has_stream; rewrite B; auto.
Qed.

(** A call that is refused returns 0 and only raises an error. *)
Definition refused_call (z : zlib) (a b : gst) (r : resp) : Prop :=
  r = ret 0 /\ same_labels z a b /\ (forall n, errors z a n -> errors z b (n + 1)) /\ (forall e, pending z a e -> e <> 0 -> pending z b e) /\
  (pending z a 0 -> exists e, e <> 0 /\ pending z b e).

Lemma refused_error : forall z e st, e <> 0 -> refused_call z st (set_error e st) (ret 0).
Proof.
  intros z e st NE. split; [reflexivity|]. split; [apply same_labels_error|]. unfold set_error. destruct (Z.eqb_spec e 0) as [|NZ]; [contradiction|].
  split; [|split].
  - intros n. rewrite !errors_iff. intros <-. reflexivity.
  - intros x. rewrite !pending_iff. intros <- N. cbn. destruct (Z.eqb_spec (r_last (g_err st)) 0); [contradiction|reflexivity].
  - rewrite pending_iff. intros P. exists e. split; [exact NE|]. rewrite pending_iff. cbn. rewrite P. reflexivity.
Qed.

Lemma well_formed_iff : forall s, good_uel s = true <-> well_formed s.
Proof. intros s. rewrite good_uel_spec. unfold wf_label, quotable, well_formed. rewrite Forall_forall. tauto. Qed.

Lemma trim_twice : forall s, trim_right (trim_right s) = trim_right s.
Proof. intros s. apply trim_right_idem. Qed.

(** What the three registering calls do. *)
Lemma registers_cases : forall z c s st r st', registers c s -> exec z c st = Done (r, st') ->
  (r_code r = 0 /\ exists e, e <> 0 /\ r = ret 0 /\
      (st' = set_error e st \/
       exists en d1 n, c = gdxUELRegisterMap n s /\ well_formed (trim_right s) /\ uel_add (trim_right s) (g_dic st) = (en, d1) /\ st' = set_error e (set_g_dic (set_d_status None d1) st) /\
         exists v, user_map d1 en = Done v /\ (0 <= v /\ v <> n))) \/
  (r_code r = 1 /\ well_formed (trim_right s) /\
   exists en d1, uel_add (trim_right s) (g_dic st) = (en, d1) /\
     ((c = gdxUELRegisterRaw s /\ r = ret 1 /\ st' = set_g_dic d1 st) \/
      (c = gdxUELRegisterStr s /\ exists u d2, new_usr_uel en d1 = Done (u, d2) /\ r = ret_i 1 [u] /\ st' = set_g_dic d2 st) \/
      (exists n v, c = gdxUELRegisterMap n s /\ r = ret 1 /\ user_map d1 en = Done v /\
         ((v < 0 /\ exists d2 m, set_user_map en n d1 = Done d2 /\ im_set (d_usr d2) n en = Done m /\ st' = set_g_dic (set_d_status None (set_d_usr m d2)) st) \/
          (0 <= v /\ v = n /\ st' = set_g_dic (set_d_status None d1) st))))).
Proof.
  intros z c s st r st' [->|[->|(n & ->)]] H; cbn [exec] in H.
  - unfold register_raw, checked in H. destruct (mode_in _ _); [|injection H as <- <-; left; split; [reflexivity|]; exists ERR_BADMODE; split; [discriminate|auto]].
    destruct (trim_store s) as [t|] eqn:T; [|discriminate]. cbn [obind] in H. apply trim_stored in T. subst t. destruct (good_uel (trim_right s)) eqn:G.
    + injection H as <- <-. right. split; [reflexivity|]. split; [apply well_formed_iff; exact G|]. destruct (uel_add (trim_right s) (g_dic st)) as [en d1] eqn:UA.
      exists en, d1. split; [reflexivity|]. left. unfold upd_dic, upd. cbv beta. rewrite UA. auto.
    + injection H as <- <-. left. split; [reflexivity|]. exists ERR_BADUELSTR. split; [discriminate|auto].
  - unfold register_str, checked in H. destruct (mode_in _ _); [|injection H as <- <-; left; split; [reflexivity|]; exists ERR_BADMODE; split; [discriminate|auto]].
    destruct (trim_store s) as [t|] eqn:T; [|discriminate]. cbn [obind] in H. apply trim_stored in T. subst t. destruct (good_uel (trim_right s)) eqn:G.
    + unfold add_usr_new in H. destruct (uel_add (trim_right s) (g_dic st)) as [en d1] eqn:UA. destruct (new_usr_uel en d1) as [[u d2]|] eqn:NU; [|discriminate].
      cbn [obind] in H. injection H as <- <-. right. split; [reflexivity|]. split; [apply well_formed_iff; exact G|]. exists en, d1. split; [reflexivity|]. right; left.
      split; [reflexivity|]. exists u, d2. auto.
    + injection H as <- <-. left. split; [reflexivity|]. exists ERR_BADUELSTR. split; [discriminate|auto].
  - unfold register_map, checked in H. destruct (trim_store s) as [t|] eqn:T; [|discriminate]. cbn [obind] in H. apply trim_stored in T. subst t.
    destruct (mode_in _ _); [|injection H as <- <-; left; split; [reflexivity|]; exists ERR_BADMODE; split; [discriminate|auto]]. destruct (good_uel (trim_right s)) eqn:G.
    + unfold add_usr_indx_new in H. destruct (uel_add (trim_right s) (g_dic st)) as [en d1] eqn:UA. destruct (user_map d1 en) as [v|] eqn:UM; [|discriminate]. cbn [obind] in H.
      destruct (Z.ltb_spec v 0) as [V|V].
      * destruct (set_user_map en n d1) as [d2|] eqn:SU; [|discriminate]. cbn [obind] in H. destruct (im_set (d_usr d2) n en) as [m|] eqn:IM; [|discriminate]. cbn [obind] in H.
        assert (NN : 0 <= n). { unfold im_set in IM. destruct (Z.ltb_spec n 0); [discriminate|lia]. }
        destruct (Z.leb_spec 0 n); [|lia]. injection H as <- <-. right. split; [reflexivity|]. split; [apply well_formed_iff; exact G|]. exists en, d1. split; [reflexivity|].
        right; right. exists n, v. split; [reflexivity|]. split; [reflexivity|]. split; [exact UM|]. left. split; [exact V|]. exists d2, m. auto.
      * destruct (Z.eqb_spec v n) as [->|NE]; cbn [obind] in H.
        -- destruct (Z.leb_spec 0 n); [|lia]. injection H as <- <-. right. split; [reflexivity|]. split; [apply well_formed_iff; exact G|]. exists en, d1. split; [reflexivity|].
           right; right. exists n, n. split; [reflexivity|]. split; [reflexivity|]. split; [exact UM|]. right. auto.
        -- change (0 <=? -1) with false in H. injection H as <- <-. left. split; [reflexivity|]. exists ERR_UELCONFLICT. split; [discriminate|]. split; [reflexivity|]. right.
           exists en, d1, n. split; [reflexivity|]. split; [apply well_formed_iff; exact G|]. split; [reflexivity|]. split; [reflexivity|]. exists v. auto.
    + injection H as <- <-. left. split; [reflexivity|]. exists ERR_BADUELSTR. split; [discriminate|auto].
Qed.

(** The tables after a label was registered. *)
Lemma registered_table : forall s d en d1 v, labels_inv d -> user_inv true d -> uel_add s d = (en, d1) -> user_map d1 en = Done v ->
  exists t, znth (d_uels d1) (en - 1) = Some (t, v) /\ upper t = upper s /\ d_usr d1 = d_usr d /\
    ((d1 = d /\ uel_find d s = en) \/ (uel_find d s = -1 /\ t = s /\ v = -1 /\ en = zlen (d_uels d) + 1 /\ d_uels d1 = d_uels d ++ [(s, -1)])).
Proof.
  intros s d en d1 v L U UA UM. unfold user_map in UM. destruct (znth (d_uels d1) (en - 1)) as [[t u]|] eqn:Z1; [|discriminate]. injection UM as <-.
  destruct (uel_add_table _ _ _ _ UA L) as [(-> & F & P & t' & u' & E & UP)|(F & -> & ->)].
  - rewrite Z1 in E. injection E as <- <-. exists t. split; [reflexivity|]. auto.
  - cbn [d_uels set_d_uels] in Z1. replace (zlen (d_uels d) + 1 - 1) with (zlen (d_uels d)) in Z1 by lia.
    assert (X : znth (d_uels d ++ [(s, -1)]) (zlen (d_uels d)) = Some (s, -1)). { rewrite znth_app_r by lia. rewrite Z.sub_diag. reflexivity. }
    rewrite X in Z1. injection Z1 as <- <-. exists s. cbn [d_uels set_d_uels snd]. replace (zlen (d_uels d) + 1 - 1) with (zlen (d_uels d)) by lia.
    split; [reflexivity|]. split; [reflexivity|]. split; [reflexivity|]. right. auto.
Qed.

Lemma not_found : forall z M st s, at_work M st -> uel_find (g_dic st) (trim_right s) < 0 -> forall k u, ~ finds z st s k u.
Proof.
  intros z M st s AW F k u X. apply (finds_iff z M st s k u AW) in X. destruct X as (t & E & UP). apply entry_iff in E.
  pose proof (find_of_entry _ _ _ _ _ (aw_labels _ _ AW) E UP). apply znth_Some in E. lia.
Qed.

(** ** C13: labels are well formed *)

Theorem C13_labels_are_well_formed : forall z cs st k s, working z cs st -> label z st k s -> well_formed s /\ trim_right s = s.
Proof.
  intros z cs st k s W (u & E). apply entry_iff in E. destruct (working_at z true cs st W (or_introl eq_refl)) as [[_ G] _ _ _ _].
  destruct (G _ _ E) as [G1 G2]. split; [apply well_formed_iff; exact G1|exact G2].
Qed.

Theorem C13_bad_labels_are_refused : forall z st c s r st', registers c s -> ~ well_formed (trim_right s) -> exec z c st = Done (r, st') -> refused_call z st st' r.
Proof.
  intros z st c s r st' R NW H. destruct (registers_cases _ _ _ _ _ _ R H) as [(_ & e & NE & -> & [->|(en & d1 & n & _ & WF & _)])|(_ & WF & _)]; [|contradiction|contradiction].
  apply refused_error. exact NE.
Qed.

(** In their modes the calls accept exactly the well-formed labels. *)
Theorem C13_accepted_exactly : forall z st c s r st', (g_mode st = f_raw_elem /\ c = gdxUELRegisterRaw s \/ g_mode st = f_str_elem /\ c = gdxUELRegisterStr s) ->
  exec z c st = Done (r, st') -> (r_code r = 1 <-> well_formed (trim_right s)).
Proof.
  intros z st c s r st' C H. split.
  - intros RC. assert (R : registers c s) by (destruct C as [[_ ->]|[_ ->]]; unfold registers; auto).
    destruct (registers_cases _ _ _ _ _ _ R H) as [(R0 & _)|(_ & WF & _)]; [congruence|exact WF].
  - intros WF. apply well_formed_iff in WF. destruct C as [[M ->]|[M ->]]; cbn [exec] in H.
    + unfold register_raw, checked in H. rewrite M in H. change (mode_in f_raw_elem [f_raw_elem]) with true in H. cbn iota in H.
      destruct (trim_store s) as [t|] eqn:T; [|discriminate]. cbn [obind] in H. apply trim_stored in T. subst t. rewrite WF in H. injection H as <- _. reflexivity.
    + unfold register_str, checked in H. rewrite M in H. change (mode_in f_str_elem [f_str_elem]) with true in H. cbn iota in H.
      destruct (trim_store s) as [t|] eqn:T; [|discriminate]. cbn [obind] in H. apply trim_stored in T. subst t. rewrite WF in H. 
      destruct (add_usr_new _ _) as [[u d2]|]; [|discriminate]. cbn [obind] in H. injection H as <- _. reflexivity.
Qed.

(** ** C11: registering *)

(** A label already known keeps its number; a new one gets the next number. *)
Theorem C11_registering : forall z cs st c s r st' n h, working z cs st -> registers c s -> call_ok c -> exec z c st = Done (r, st') -> r_code r = 1 -> totals z st n h ->
  (exists k, label_found z st s k /\ label_found z st' s k /\ forall j t, label z st' j t <-> label z st j t) \/
  ((forall k, ~ label_found z st s k) /\ label_found z st' s (n + 1) /\ forall j t, label z st' j t <-> label z st j t \/ j = n + 1 /\ t = trim_right s).
Proof.
  intros z cs st c s r st' n h W R OK H RC T.
  pose proof (working_at z true cs st W (or_introl eq_refl)) as AW. pose proof AW as [L U N HI HS].
  assert (AW' : at_work true st').
  { eapply (at_work_during z true [c] st st'); [|left; reflexivity|exact AW]. split; [destruct R as [->|[->|(m & ->)]]; reflexivity|]. split; [constructor; [exact OK|constructor]|].
    exists [r]. cbn [run]. rewrite H. reflexivity. }
  apply (totals_iff z true st n h AW) in T. destruct T as [-> ->].
  destruct (registers_cases _ _ _ _ _ _ R H) as [(R0 & _)|(_ & WF & en & d1 & UA & X)]; [congruence|].
  assert (TX : forall j, option_map fst (znth (d_uels (g_dic st')) (j - 1)) = option_map fst (znth (d_uels d1) (j - 1))).
  { intros j. assert (SM : forall d2 v, set_user_map en v d1 = Done d2 -> option_map fst (znth (d_uels d2) (j - 1)) = option_map fst (znth (d_uels d1) (j - 1))).
    { intros d2 v SU. unfold set_user_map in SU. destruct (znth (d_uels d1) (en - 1)) as [e|] eqn:E; [|discriminate]. injection SU as <-. cbn [d_uels set_d_uels].
      destruct (Z.eq_dec (j - 1) (en - 1)) as [->|Q]; [|rewrite znth_zset_neq by congruence; reflexivity]. rewrite znth_zset_eq by (eapply znth_Some; exact E). rewrite E. reflexivity. }
    destruct X as [(_ & _ & ->)|[(_ & u & d2 & NU & _ & ->)|(m & v & _ & _ & UM & [(V & d2 & im & SU & IM & ->)|(V & -> & ->)])]]; try reflexivity.
    - unfold new_usr_uel in NU. destruct (user_map d1 en) as [v|]; [|discriminate]. cbn [obind] in NU. destruct (v <? 0); [|injection NU as _ <-; reflexivity].
      destruct (int_okb _); [|discriminate]. destruct (set_user_map en _ d1) as [d3|] eqn:SU; [|discriminate]. cbn [obind] in NU.
      destruct (im_set _ _ _) as [im|]; [|discriminate]. injection NU as _ <-. exact (SM _ _ SU).
    - exact (SM _ _ SU). }
  assert (LB : forall j t, label z st' j t <-> option_map fst (znth (d_uels d1) (j - 1)) = Some t).
  { intros j t. rewrite label_iff. unfold uel_text. rewrite TX. reflexivity. }
  assert (LF : forall k t, option_map fst (znth (d_uels d1) (k - 1)) = Some t -> upper t = upper (trim_right s) -> label_found z st' s k).
  { intros k t E UP. apply LB in E. destruct E as (u & E). apply found_finds. exists u. apply (finds_iff z true st' s k u AW'). eauto. }
  destruct (uel_add_table _ _ _ _ UA L) as [(-> & F & P & t & u & E & UP)|(F & -> & ->)].
  - left. exists en. split; [|split].
    + apply found_finds. exists u. apply (finds_iff z true st s en u AW). exists t. split; [apply entry_iff; exact E|exact UP].
    + eapply LF; [rewrite E; reflexivity|exact UP].
    + intros j x. rewrite LB, label_iff. reflexivity.
  - right. cbn [d_uels set_d_uels] in *. split; [|split].
    + intros k (v & FD). eapply (not_found z true st s AW); [lia|exact FD].
    + eapply LF; [|reflexivity]. replace (zlen (d_uels (g_dic st)) + 1 - 1) with (zlen (d_uels (g_dic st))) by lia. rewrite znth_app_r by lia. rewrite Z.sub_diag. reflexivity.
    + intros j x. rewrite LB, label_iff. unfold uel_text. split.
      * intros E. destruct (Z.lt_ge_cases (j - 1) (zlen (d_uels (g_dic st)))) as [Q|Q]; [left; rewrite znth_app_l in E by exact Q; exact E|].
        right. destruct (znth (d_uels (g_dic st) ++ _) (j - 1)) as [e|] eqn:Z1; [|discriminate]. pose proof (znth_Some _ _ _ Z1) as Z2. rewrite zlen_app in Z2. change (zlen [(trim_right s, -1)]) with 1 in Z2.
        assert (j - 1 = zlen (d_uels (g_dic st))) as Q2 by lia. rewrite Q2 in Z1. rewrite znth_app_r, Z.sub_diag in Z1 by lia. injection Z1 as <-. injection E as <-. split; [lia|reflexivity].
      * intros [E|[-> ->]].
        -- rewrite znth_app_l; [exact E|]. destruct (znth (d_uels (g_dic st)) (j - 1)) eqn:Z1; [|discriminate]. apply znth_Some in Z1. lia.
        -- replace (zlen (d_uels (g_dic st)) + 1 - 1) with (zlen (d_uels (g_dic st))) by lia. rewrite znth_app_r by lia. rewrite Z.sub_diag. reflexivity.
Qed.

(** ** C12: renaming *)

Theorem C12_renaming : forall z cs st old new r st', working z cs st -> exec z (gdxRenameUEL old new) st = Done (r, st') ->
  (r_code r = 0 <-> (exists k, label_found z st old k) /\ well_formed (trim_right new) /\ forall k, ~ label_found z st new k) /\
  (r_code r <> 0 -> st' = st) /\
  (r_code r = 0 -> exists n, label_found z st old n /\ label_found z st' new n /\ (forall k, ~ label_found z st' old k) /\
     (forall k s u, entry z st' k s u <-> k = n /\ s = trim_right new /\ (exists s0, entry z st n s0 u) \/ k <> n /\ entry z st k s u) /\
     (forall s k, upper (trim_right s) <> upper (trim_right old) -> upper (trim_right s) <> upper (trim_right new) -> label_found z st' s k <-> label_found z st s k)).
Proof.
  intros z cs st old new r st' W H. pose proof (working_at z true cs st W (or_introl eq_refl)) as AW. pose proof AW as [L U N HI HS].
  assert (FD : forall s, (exists k, label_found z st s k) <-> 0 <= uel_find (g_dic st) (trim_right s)).
  { intros s. split.
    - intros (k & u & F). apply (finds_iff z true st s k u AW) in F. destruct F as (t & E & UP). apply entry_iff in E. rewrite (find_of_entry _ _ _ _ _ L E UP). apply znth_Some in E. lia.
    - intros F. destruct (entry_of_find _ _ F) as (t & u & E & UP). eexists _, u. apply (finds_iff z true). exact AW. exists t. split; [apply entry_iff; exact E|exact UP]. }
  cbn [exec] in H. unfold rename_uel in H. cbv zeta in H. rewrite N in H. cbn [negb] in H.
  destruct (trim_store new) as [t|] eqn:T; [|discriminate]. cbn [obind] in H. apply trim_stored in T. subst t.
  destruct (good_uel (trim_right new)) eqn:G; cbn [negb] in H.
  2:{ injection H as <- <-. split; [|split; [reflexivity|intros X; discriminate X]]. split; [intros X; discriminate X|]. intros (_ & WF & _). apply well_formed_iff in WF. congruence. }
  destruct (trim_store old) as [t|] eqn:T; [|discriminate]. cbn [obind] in H. apply trim_stored in T. subst t.
  destruct (Z.ltb_spec (uel_find (g_dic st) (trim_right old)) 0) as [F|F].
  { injection H as <- <-. split; [|split; [reflexivity|intros X; discriminate X]]. split; [intros X; discriminate X|]. intros (X & _). apply FD in X. lia. }
  destruct (Z.leb_spec 0 (uel_find (g_dic st) (trim_right new))) as [F2|F2].
  { injection H as <- <-. split; [|split; [reflexivity|intros X; discriminate X]]. split; [intros X; discriminate X|]. intros (_ & _ & X). apply FD in F2. destruct F2 as (k & K). elim (X k K). }
  destruct (entry_of_find _ _ F) as (t & u & E & UP). rewrite E in H. injection H as <- <-. cbn [snd]. set (n := uel_find (g_dic st) (trim_right old)) in *.
  assert (NF : forall k, ~ label_found z st new k). { intros k K. assert (0 <= uel_find (g_dic st) (trim_right new)) by (apply FD; eauto). lia. }
  assert (FO : label_found z st old n). { apply found_finds. exists u. apply (finds_iff z true). exact AW. exists t. split; [apply entry_iff; exact E|exact UP]. }
  split; [|split; [intros X; elim X; reflexivity|intros _]].
  { split; [intros _|reflexivity]. split; [eauto|]. split; [apply well_formed_iff; exact G|exact NF]. }
  set (st' := upd_dic _ st).
  assert (EN : forall k s v, entry z st' k s v <-> k = n /\ s = trim_right new /\ (exists s0, entry z st n s0 v) \/ k <> n /\ entry z st k s v).
  { intros k s v. rewrite !entry_iff. cbn [g_dic st' upd_dic upd set_g_dic d_uels set_d_uels]. split.
    - intros X. apply znth_zset in X. destruct X as [[X Y]|[X Y]]; [left|right; split; [lia|exact Y]]. injection Y as -> ->. split; [lia|]. split; [reflexivity|]. exists t. apply entry_iff. exact E.
    - intros [(-> & -> & s0 & X)|[X Y]].
      + apply entry_iff in X. rewrite E in X. injection X as -> ->. apply znth_zset_eq. eapply znth_Some. exact E.
      + rewrite znth_zset_neq by lia. exact Y. }
  assert (AW' : at_work true st').
  { constructor; [| | | |exact HS]; cbn [g_dic st' upd_dic upd set_g_dic].
    - destruct L as [LD LG]. assert (SN : sl_find true (d_uels (g_dic st)) (trim_right new) = None).
      { destruct (sl_find true (d_uels (g_dic st)) (trim_right new)) as [m|] eqn:SF; [|reflexivity]. unfold uel_find in F2. rewrite SF in F2. apply sl_find_range in SF. lia. }
      split; [apply distinct_zset_new; assumption|]. intros i x X. apply znth_zset in X. destruct X as [[-> ->]|[_ X]]; [split; [exact G|apply trim_twice]|eapply LG; exact X].
    - destruct U as [I1 I2 I3 I4 I5]. constructor; cbn [d_usr d_uels set_d_uels]; auto; try discriminate.
      + intros k. destruct (I2 k) as [X|(B & s0 & X)]; [left; exact X|right]. split; [exact B|]. destruct (Z.eq_dec (im_get (d_usr (g_dic st)) k - 1) (n - 1)) as [Q|Q].
        * exists (trim_right new). rewrite Q, znth_zset_eq by (eapply znth_Some; exact E). rewrite Q, E in X. injection X as -> ->. reflexivity.
        * exists s0. rewrite znth_zset_neq by congruence. exact X.
      + intros i x X. apply znth_zset in X. destruct X as [[-> ->]|[_ X]]; [exact (I3 _ _ E)|exact (I3 _ _ X)].
    - exact N.
    - destruct HI as [HI|(i & s & HI)]; [left; exact HI|right]. cbn [d_usr d_uels set_d_uels]. destruct (Z.eq_dec i (n - 1)) as [->|Q].
      + exists (n - 1), (trim_right new). rewrite znth_zset_eq by (eapply znth_Some; exact E). rewrite E in HI. injection HI as -> ->. reflexivity.
      + exists i, s. rewrite znth_zset_neq by congruence. exact HI. }
  assert (DF : upper (trim_right old) <> upper (trim_right new)).
  { intros X. elim (NF n). apply found_finds. exists u. apply (finds_iff z true). exact AW. exists t. split; [apply entry_iff; exact E|congruence]. }
  exists n. split; [exact FO|]. split; [|split; [|split; [exact EN|]]].
  - apply found_finds. exists u. apply (finds_iff z true). exact AW'. exists (trim_right new). split; [|reflexivity]. apply EN. left. split; [reflexivity|]. split; [reflexivity|]. exists t. apply entry_iff. exact E.
  - intros k (v & FK). apply (finds_iff z true st' old k v AW') in FK. destruct FK as (x & X & UX). apply EN in X. destruct X as [(-> & -> & _)|[X Y]]; [congruence|].
    apply entry_iff in Y. apply X. pose proof (find_of_entry _ _ _ _ _ L Y UX). unfold n. congruence.
  - intros s k N1 N2. rewrite !found_finds. split; intros (v & FK); exists v.
    + apply (finds_iff z true st' s k v AW') in FK. apply (finds_iff z true st s k v AW). destruct FK as (x & X & UX). apply EN in X. destruct X as [(-> & -> & _)|[X Y]]; [congruence|]. eauto.
    + apply (finds_iff z true st s k v AW) in FK. apply (finds_iff z true st' s k v AW'). destruct FK as (x & X & UX). exists x. split; [|exact UX]. apply EN. right. split; [|exact X].
      intros ->. apply entry_iff in X. rewrite E in X. injection X as -> ->. congruence.
Qed.

(** ** C14: consecutive user numbers *)

Lemma one_call : forall z c st r st', session_call c = true -> call_ok c -> exec z c st = Done (r, st') -> during z [c] st st'.
Proof. intros z c st r st' S0 OK H. split; [cbn; rewrite S0; reflexivity|]. split; [repeat constructor; exact OK|]. exists [r]. cbn [run]. rewrite H. reflexivity. Qed.

Theorem C14_registering : forall z cs st s r st' n h, working z cs st -> call_ok (gdxUELRegisterStr s) -> exec z (gdxUELRegisterStr s) st = Done (r, st') -> r_code r = 1 -> totals z st n h ->
  exists u k t, r = ret_i 1 [u] /\ entry z st' k t u /\ upper t = upper (trim_right s) /\ finds z st' s k u /\
    ((0 <= u /\ finds z st s k u /\ same_labels z st st') \/
     (u = h + 1 /\ gets z st' u t /\ (forall j v, finds z st s j v -> v = -1) /\ (exists n', totals z st' n' (h + 1)) /\
      forall j x v, j <> k -> entry z st' j x v <-> entry z st j x v)).
Proof.
  intros z cs st s r st' n h W OK H RC T.
  pose proof (working_at z true cs st W (or_introl eq_refl)) as AW. pose proof AW as [L U N HI HS].
  assert (AW' : at_work true st') by (eapply (at_work_during z true); [eapply (one_call z (gdxUELRegisterStr s)); [reflexivity|exact OK|exact H]|left; reflexivity|exact AW]).
  apply (totals_iff z true st n h AW) in T. destruct T as [-> ->].
  destruct (registers_cases _ _ s _ _ _ (or_intror (or_introl eq_refl)) H) as [(R0 & _)|(_ & WF & en & d1 & UA & [(X & _)|[(_ & u & d2 & NU & -> & ->)|(m & v & X & _)]])]; try discriminate; [congruence|].
  unfold new_usr_uel in NU. destruct (user_map d1 en) as [v|] eqn:UM; [|discriminate]. cbn [obind] in NU.
  destruct (registered_table _ _ _ _ _ L U UA UM) as (t & E & UP & US & CA).
  destruct (Z.ltb_spec v 0) as [V|V].
  - destruct (int_okb (im_high (d_usr d1) + 1)) eqn:IO; [|discriminate]. unfold set_user_map in NU. rewrite E in NU. cbn [obind] in NU.
    change (d_usr (set_d_uels _ d1)) with (d_usr d1) in NU. destruct (im_set (d_usr d1) (im_high (d_usr d1) + 1) en) as [m|] eqn:IM; [|discriminate]. cbn [obind] in NU. injection NU as <- <-.
    cbn [fst] in *. set (d2 := set_d_status None _) in *. set (u := im_high (d_usr d1) + 1) in *.
    pose proof (znth_Some _ _ _ E) as RG.
    assert (E2 : znth (d_uels d2) (en - 1) = Some (t, u)) by (cbn; apply znth_zset_eq; exact RG).
    assert (EN : entry z (set_g_dic d2 st) en t u) by (apply entry_iff; exact E2).
    exists u, en, t. split; [reflexivity|]. split; [exact EN|]. split; [exact UP|]. split; [apply (finds_iff z true); [exact AW'|eauto]|].
    assert (IB : 0 <= u <= INT_MAX). { unfold int_okb in IO. apply Bool.andb_true_iff in IO. destruct IO as [_ IO]. apply Z.leb_le in IO. destruct (ui_map _ _ U) as [? HH]. rewrite US in *. subst u. rewrite US in *. unfold INT_MAX in *. lia. }
    destruct (im_set_spec (d_usr d1) u en) as (m' & S' & J1 & J2 & J3); [rewrite US; apply U|exact IB|]. rewrite IM in S'. injection S' as <-.
    right. split; [subst u; rewrite US; reflexivity|].
    split. { apply (gets_iff z true); [exact AW'|]. exists en. split; [lia|]. split; [|exact EN]. cbn [d2 g_dic set_g_dic d_usr set_d_status set_d_usr]. rewrite J2, Z.eqb_refl. reflexivity. }
    split; [|split].
    + intros j w F. apply (finds_iff z true st s j w AW) in F. destruct F as (x & EX & UX). apply entry_iff in EX. pose proof (find_of_entry _ _ _ _ _ L EX UX) as FE.
      destruct CA as [[-> F]|(F & _)]; [|apply znth_Some in EX; lia]. rewrite FE in F. subst j. rewrite E in EX. injection EX as -> ->. destruct (ui_num _ _ U _ _ E) as [Q|Q]; cbn in Q; lia.
    + eexists. apply (totals_iff z true); [exact AW'|]. split; [reflexivity|]. cbn [d2 g_dic set_g_dic d_usr set_d_status set_d_usr]. rewrite J3. subst u. rewrite US. lia.
    + intros j x w NJ. rewrite !entry_iff. cbn [d2 g_dic set_g_dic d_uels set_d_status set_d_usr set_d_uels]. rewrite znth_zset_neq by lia.
      destruct CA as [[-> _]|(_ & _ & _ & EN' & ->)]; [reflexivity|]. split; intros Q.
      * destruct (Z.lt_ge_cases (j - 1) (zlen (d_uels (g_dic st)))) as [B|B]; [rewrite znth_app_l in Q by exact B; exact Q|]. apply znth_Some in Q. rewrite zlen_app in Q. change (zlen [(trim_right s, -1)]) with 1 in Q. lia.
      * rewrite znth_app_l; [exact Q|apply znth_Some in Q; lia].
  - injection NU as <- <-. destruct CA as [[-> F]|(_ & _ & -> & _)]; [|lia].
    assert (EN : entry z st en t v) by (apply entry_iff; exact E).
    assert (FI : finds z st s en v) by (apply (finds_iff z true); [exact AW|eauto]).
    assert (SL : same_labels z st (set_g_dic (set_d_status None (g_dic st)) st)) by (apply same_labels_by; try reflexivity; auto).
    exists v, en, t. split; [reflexivity|]. split; [apply SL; exact EN|]. split; [exact UP|]. split; [apply SL; exact FI|]. left. auto.
Qed.

(** A user number once given stays; registering the label again answers it. *)
Theorem C14_numbers_stay : forall z cs st cs' st' k s u, working z cs st -> during z cs' st st' -> entry z st k s u -> 0 <= u -> exists t, entry z st' k t u.
Proof.
  intros z cs st cs' st' k s u W D E P. pose proof (working_at z true cs st W (or_introl eq_refl)) as [L U _ _ _]. apply entry_iff in E.
  assert (G : labels_grow (g_dic st) (g_dic st')).
  { eapply (during_dic z (fun d => user_inv true d /\ labels_grow (g_dic st) d)) with (cs := cs') (a := st); [|exact D|split; [exact U|apply labels_grow_refl]].
    intros c d d' I A [I1 I2]. split; [eapply user_step; [left; reflexivity|exact A|exact I1]|]. eapply labels_grow_trans; [exact I2|]. eapply labels_grow_step; eassumption. }
  destruct (G _ _ E) as ((t & v) & E' & V). exists t. apply entry_iff. rewrite E'. cbn [snd] in V. rewrite (V P). reflexivity.
Qed.

Theorem C14_same_again : forall z cs st s r st1 cs' st2 s' r2 st3, working z cs st -> Forall call_ok [gdxUELRegisterStr s; gdxUELRegisterStr s'] ->
  exec z (gdxUELRegisterStr s) st = Done (r, st1) -> r_code r = 1 -> during z cs' st1 st2 -> no_rename cs' ->
  exec z (gdxUELRegisterStr s') st2 = Done (r2, st3) -> r_code r2 = 1 -> upper (trim_right s') = upper (trim_right s) -> r2 = r.
Proof.
  intros z cs st s r st1 cs' st2 s' r2 st3 W OK H RC D NR H2 RC2 UP. inversion OK as [|? ? OK1 OK2]; subst. apply Forall_inv in OK2.
  pose proof (one_call z (gdxUELRegisterStr s) st r st1 eq_refl OK1 H) as D1.
  assert (W1 : working z (cs ++ [gdxUELRegisterStr s]) st1).
  { destruct W as [(st0 & C & D0)|(name & prod & compr & ws & rs & stw & st0 & RO & D0)]; [left; exists st0; split; [exact C|eapply during_trans; eassumption]|right].
    exists name, prod, compr, ws, rs, stw, st0. split; [exact RO|eapply during_trans; eassumption]. }
  assert (W2 : working z ((cs ++ [gdxUELRegisterStr s]) ++ cs') st2).
  { destruct W1 as [(st0 & C & D0)|(name & prod & compr & ws & rs & stw & st0 & RO & D0)]; [left; exists st0; split; [exact C|eapply during_trans; eassumption]|right].
    exists name, prod, compr, ws, rs, stw, st0. split; [exact RO|eapply during_trans; eassumption]. }
  destruct (C47_enumeration _ _ _ W) as (n & h & T & _). destruct (C47_enumeration _ _ _ W2) as (n2 & h2 & T2 & _).
  destruct (C14_registering _ _ _ _ _ _ _ _ W OK1 H RC T) as (u & k & t & -> & E & UT & F & G).
  assert (P : 0 <= u). { destruct G as [(P & _)|(-> & _)]; [exact P|]. pose proof (working_at z true cs st W (or_introl eq_refl)) as AW. apply (totals_iff z true st n h AW) in T. destruct T as [_ ->].
    destruct (ui_map _ _ (aw_users _ _ AW)). lia. }
  destruct (C14_registering _ _ _ _ _ _ _ _ W2 OK2 H2 RC2 T2) as (u2 & k2 & t2 & -> & E2 & UT2 & F2 & G2).
  destruct (C14_numbers_stay _ _ _ _ _ _ _ _ W1 D E P) as (t' & E').
  assert (LB : label z st2 k t) by (eapply (C11_labels_stay z _ st1 cs' st2); [exact W1|exact D|exact NR|exists u; exact E]).
  assert (t' = t) as ->. { apply label_iff in LB. apply entry_iff in E'. unfold uel_text in LB. rewrite E' in LB. injection LB as ->. reflexivity. }
  assert (FF : finds z st2 s' k u). { apply (finds_iff z true st2 s' k u (working_at z true _ st2 W2 (or_introl eq_refl))). exists t. split; [exact E'|congruence]. }
  destruct G2 as [(_ & F3 & _)|(_ & _ & X & _)].
  - destruct FF as (x & FF). destruct F3 as (y & F3). rewrite FF in F3. injection F3 as _ -> _. reflexivity.
  - pose proof (X _ _ FF). lia.
Qed.

(** Without gdxUELRegisterMap the user numbers are 1..h, each the number of one label, and
    gdxGetUEL, gdxUMUelGet and gdxUMFindUEL agree. *)
Lemma no_zero : forall z cs st i e, working z cs st -> no_map cs -> znth (d_uels (g_dic st)) i = Some e -> snd e <> 0.
Proof.
  intros z cs st i e W NM. revert i e.
  assert (X : forall a, at_work false a -> (forall i e, znth (d_uels (g_dic a)) i = Some e -> snd e <> 0) -> during z cs a st -> forall i e, znth (d_uels (g_dic st)) i = Some e -> snd e <> 0).
  { intros a AW A0 D. eapply (during_dic z (fun d => user_inv false d /\ forall i e, znth (d_uels d) i = Some e -> snd e <> 0)) with (a := a) (cs := cs); [|exact D|split; [apply AW|exact A0]].
    intros c d d' I A [I1 I2]. unfold no_map in NM. rewrite Forall_forall in NM. specialize (NM c I). split; [eapply user_step; [right; exact NM|exact A|exact I1]|].
    intros i e. destruct (uels_cases _ _ _ A) as [[E U]|[(s1 & LB & G1 & G2 & F & E & U)|[(n & e1 & s1 & o & w & RT & G1 & G2 & F & E1 & E & U)|
      [(en & n & m & e1 & NB & E1 & NG & S1 & R & MM & E & U)|(n & e1 & E1 & E & U)]]]]; rewrite E; intros H.
    - eapply I2. exact H.
    - destruct (Z.lt_ge_cases i (zlen (d_uels d))) as [B|B]; [rewrite znth_app_l in H by exact B; eapply I2; exact H|].
      rewrite znth_app_r in H by lia. apply znth_In in H. destruct H as [<-|[]]. discriminate.
    - apply znth_zset in H. destruct H as [[-> ->]|[_ H]]; [exact (I2 _ _ E1)|exact (I2 _ _ H)].
    - apply znth_zset in H. destruct H as [[-> ->]|[_ H]]; [|exact (I2 _ _ H)]. destruct MM as [MM|MM]; [congruence|]. cbn [snd]. destruct (ui_map _ _ I1). lia.
    - apply znth_zset in H. destruct H as [[-> ->]|[_ H]]; [|exact (I2 _ _ H)]. destruct (ui_get _ _ I1 n) as [Q|(_ & s0 & Q)]; [rewrite Q in E1; apply znth_Some in E1; lia|].
      rewrite E1 in Q. injection Q as ->. exact (I2 _ _ E1). }
  destruct W as [(st0 & [C|C] & D)|(name & prod & compr & ws & rs & stw & st0 & RO & D)]; eapply (X st0); try exact D.
  - apply (working_at z false []); [left; exists st0; split; [left; exact C|apply during_nil]|right; constructor].
  - destruct (created_facts _ _ C) as (_ & _ & _ & _ & _ & mt & uc & E). rewrite E. cbn. intros i e H. apply znth_In in H. destruct H.
  - apply appended_at in C. exact C.
  - destruct C as (name0 & prod & compr & cs0 & rs0 & st1 & F & name & W & CF & AP). destruct (appending_facts _ _ _ _ _ _ _ _ _ _ W CF AP) as (E & _). rewrite E.
    cbn [d_uels loaded contents_of c_uels]. intros i e H. destruct (map_pair_znth _ _ _ _ H) as (a' & _ & _ & ->). discriminate.
  - apply (working_at z false []); [right; exists name, prod, compr, ws, rs, stw, st0; split; [exact RO|apply during_nil]|right; constructor].
  - intros i e H. destruct RO as (_ & _ & r & st1 & F & rd & rm & _ & _ & _ & _ & _ & _ & _ & E). assert (O : opened_to_read z st0) by (exists rd, name, rm; eexists; split; [exact E|reflexivity]).
    apply opened_read_facts in O. destruct O as (_ & _ & _ & _ & _ & _ & _ & _ & _ & _ & _ & O). apply znth_In in H. rewrite Forall_forall in O. rewrite (O _ H). discriminate.
Qed.

Theorem C14_numbers_are_consecutive : forall z cs st n h, working z cs st -> no_map cs -> totals z st n h ->
  (forall u, 1 <= u <= h <-> exists s, gets z st u s) /\
  (forall k s u, entry z st k s u -> u <> -1 -> 1 <= u <= h /\ gets z st u s) /\
  (forall k k' s s' u, entry z st k s u -> entry z st k' s' u -> u <> -1 -> k = k').
Proof.
  intros z cs st n h W NM T. pose proof (working_at z false cs st W (or_intror NM)) as AW. apply (totals_iff z false st n h AW) in T. destruct T as [_ ->].
  pose proof (aw_users _ _ AW) as U.
  assert (X : forall k s u, entry z st k s u -> u <> -1 -> 1 <= u <= im_high (d_usr (g_dic st)) /\ im_get (d_usr (g_dic st)) u = k).
  { intros k s u E NE. apply entry_iff in E. pose proof (no_zero _ _ _ _ _ W NM E) as NZ. cbn in NZ. destruct (ui_num _ _ U _ _ E) as [Q|Q]; cbn in Q; [lia|]. split; [lia|].
    pose proof (ui_back _ _ U eq_refl _ _ E) as B. cbn in B. rewrite B by lia. lia. }
  split; [|split].
  - intros u. split.
    + intros R. pose proof (ui_full _ _ U eq_refl u R) as P. destruct (ui_get _ _ U u) as [Q|(_ & s & Q)]; [lia|]. exists s. apply (gets_iff z false st u s AW). eexists. split; [exact P|].
      split; [reflexivity|]. apply entry_iff. exact Q.
    + intros (s & G). apply (gets_iff z false st u s AW) in G. destruct G as (k & K & G & E). apply (X k s u E). intros ->. destruct (ui_get _ _ U (-1)) as [Q|(Q & _)]; lia.
  - intros k s u E NE. destruct (X k s u E NE) as [R G]. split; [exact R|]. apply (gets_iff z false st u s AW). exists k. split; [apply entry_iff in E; apply znth_Some in E; lia|]. auto.
  - intros k k' s s' u E E' NE. destruct (X _ _ _ E NE) as [_ <-]. destruct (X _ _ _ E' NE) as [_ <-]. reflexivity.
Qed.

(** ** C15: conflicting user numbers *)

(** A label that has a user number does not get another one. *)
Theorem C15_conflicts_are_refused : forall z cs st s n k v r st', working z cs st -> finds z st s k v -> 0 <= v -> v <> n ->
  exec z (gdxUELRegisterMap n s) st = Done (r, st') -> refused_call z st st' r.
Proof.
  intros z cs st s n k v r st' W F V NE H. pose proof (working_at z true cs st W (or_introl eq_refl)) as AW. pose proof AW as [L U _ _ _].
  apply (finds_iff z true st s k v AW) in F. destruct F as (t & E & UP). apply entry_iff in E. pose proof (find_of_entry _ _ _ _ _ L E UP) as FE.
  assert (SAME : forall en d1, uel_add (trim_right s) (g_dic st) = (en, d1) -> d1 = g_dic st /\ user_map d1 en = Done v).
  { intros en d1 UA. destruct (uel_add_table _ _ _ _ UA L) as [(-> & F & _)|(F & _)]; [|apply znth_Some in E; lia]. split; [reflexivity|]. unfold user_map. rewrite <- F, FE, E. reflexivity. }
  destruct (registers_cases _ _ s _ _ _ (or_intror (or_intror (ex_intro _ n eq_refl))) H) as [(_ & e & NZ & -> & [->|(en & d1 & n0 & _ & _ & UA & -> & _)])|(_ & WF & en & d1 & UA & [(X & _)|[(X & _)|(m & v' & X & _ & UM & Y)]])]; try discriminate.
  - apply refused_error. exact NZ.
  - destruct (SAME _ _ UA) as [-> _]. pose proof (refused_error z e (set_g_dic (set_d_status None (g_dic st)) st) NZ) as (A & B & C & D & E'). split; [exact A|].
    split; [|split; [intros x Q; apply C; apply errors_iff; apply errors_iff in Q; exact Q|split; [intros x Q; apply D; apply pending_iff; apply pending_iff in Q; exact Q|intros Q; apply E'; apply pending_iff; apply pending_iff in Q; exact Q]]].
    destruct (set_error_tables e (set_g_dic (set_d_status None (g_dic st)) st)) as (X1 & _ & X2 & _).
    apply same_labels_by; rewrite ?X1; try reflexivity; unfold has_stream; rewrite X2; auto.
  - injection X as <-. destruct (SAME _ _ UA) as [-> UM2]. rewrite UM in UM2. injection UM2 as ->. destruct Y as [(Y & _)|(_ & Y & _)]; [lia|congruence].
Qed.

(** No label is the label of two user numbers. *)
Theorem C15_one_number_per_label : forall z cs st u u' s s', working z cs st -> gets z st u s -> gets z st u' s' -> upper s = upper s' -> u = u'.
Proof.
  intros z cs st u u' s s' W G G' UP. pose proof (working_at z true cs st W (or_introl eq_refl)) as AW. apply (gets_iff z true st _ _ AW) in G, G'.
  destruct G as (k & _ & _ & E), G' as (k' & _ & _ & E'). apply entry_iff in E, E'. destruct (aw_labels _ _ AW) as [D _].
  assert (k - 1 = k' - 1) as Q by (eapply D; [exact E|exact E'|apply same_upper; exact UP]). rewrite Q, E' in E. injection E as _ ->. reflexivity.
Qed.

(** An accepted gdxUELRegisterMap: the label has that number, the number leads to the
    label unless the label had it before, and no other label is touched. *)
Theorem C15_accepted : forall z cs st s n r st', working z cs st -> call_ok (gdxUELRegisterMap n s) -> exec z (gdxUELRegisterMap n s) st = Done (r, st') -> r_code r = 1 ->
  0 <= n /\ exists k t, entry z st' k t n /\ upper t = upper (trim_right s) /\ (forall j x v, j <> k -> entry z st' j x v <-> entry z st j x v) /\
    ((finds z st s k n /\ same_labels z st st') \/ ((forall j v, finds z st s j v -> v = -1) /\ gets z st' n t /\ forall u x, u <> n -> gets z st' u x <-> gets z st u x)).
Proof.
  intros z cs st s n r st' W OK H RC.
  pose proof (working_at z true cs st W (or_introl eq_refl)) as AW. pose proof AW as [L U N HI HS].
  assert (AW' : at_work true st') by (eapply (at_work_during z true); [eapply (one_call z (gdxUELRegisterMap n s)); [reflexivity|exact OK|exact H]|left; reflexivity|exact AW]).
  destruct (registers_cases _ _ s _ _ _ (or_intror (or_intror (ex_intro _ n eq_refl))) H) as [(R0 & _)|(_ & WF & en & d1 & UA & [(X & _)|[(X & _)|(m & v & X & _ & UM & Y)]])]; try discriminate; [congruence|].
  injection X as <-. destruct (registered_table _ _ _ _ _ L U UA UM) as (t & E & UP & US & CA). pose proof (znth_Some _ _ _ E) as RG.
  destruct Y as [(V & d2 & im & SU & IM & ->)|(V & -> & ->)].
  - unfold set_user_map in SU. rewrite E in SU. injection SU as <-. cbn [fst] in *. change (d_usr (set_d_uels _ d1)) with (d_usr d1) in IM.
    assert (NN : 0 <= n <= INT_MAX). { split; [unfold im_set in IM; destruct (Z.ltb_spec n 0); [discriminate|lia]|]. cbn in OK. unfold int_ok, INT_MAX in *. destruct OK. unfold INT_MAX in *. lia. }
    split; [lia|]. destruct (im_set_spec (d_usr d1) n en) as (m' & S' & J1 & J2 & J3); [rewrite US; apply U|exact NN|]. rewrite IM in S'. injection S' as <-.
    set (st' := set_g_dic _ st) in *. assert (EN : entry z st' en t n) by (apply entry_iff; cbn; apply znth_zset_eq; exact RG).
    assert (OT : forall j x v', j <> en -> entry z st' j x v' <-> entry z st j x v').
    { intros j x w NJ. rewrite !entry_iff. cbn [st' g_dic set_g_dic d_uels set_d_status set_d_usr set_d_uels]. rewrite znth_zset_neq by lia.
      destruct CA as [[-> _]|(_ & _ & _ & EN' & ->)]; [reflexivity|]. split; intros Q.
      - destruct (Z.lt_ge_cases (j - 1) (zlen (d_uels (g_dic st)))) as [B|B]; [rewrite znth_app_l in Q by exact B; exact Q|]. apply znth_Some in Q. rewrite zlen_app in Q. change (zlen [(trim_right s, -1)]) with 1 in Q. lia.
      - rewrite znth_app_l; [exact Q|apply znth_Some in Q; lia]. }
    exists en, t. split; [exact EN|]. split; [exact UP|]. split; [exact OT|]. right.
    assert (OLD : forall j w, finds z st s j w -> w = -1).
    { intros j w F. apply (finds_iff z true st s j w AW) in F. destruct F as (x & EX & UX). apply entry_iff in EX. pose proof (find_of_entry _ _ _ _ _ L EX UX) as FE.
      destruct CA as [[-> F]|(F & _)]; [|apply znth_Some in EX; lia]. rewrite FE in F. subst j. rewrite E in EX. injection EX as -> ->. destruct (ui_num _ _ U _ _ E) as [Q|Q]; cbn in Q; lia. }
    split; [exact OLD|]. split.
    + apply (gets_iff z true); [exact AW'|]. exists en. split; [lia|]. split; [|exact EN]. cbn [st' g_dic set_g_dic d_usr set_d_status set_d_usr]. rewrite J2, Z.eqb_refl. reflexivity.
    + intros u x NU. rewrite (gets_iff z true _ _ _ AW'), (gets_iff z true _ _ _ AW). cbn [st' g_dic set_g_dic d_usr set_d_status set_d_usr]. rewrite J2. destruct (Z.eqb_spec u n); [contradiction|]. rewrite US.
      assert (NK : forall k, k = en -> im_get (d_usr (g_dic st)) u = k -> 1 <= k -> False).
      { intros k -> G P. destruct (ui_get _ _ U u) as [Q|(_ & s0 & Q)]; [lia|]. rewrite G in Q. destruct CA as [[-> F]|(_ & _ & _ & EN' & _)].
        - rewrite E in Q. injection Q as -> ->. assert (u < 0) by lia. destruct (ui_get _ _ U u) as [Q|(Q & _)]; lia.
        - apply znth_Some in Q. lia. }
      split; intros (k & K & G & EX); exists k; (split; [exact K|]); (split; [exact G|]); apply (OT k x u); try exact EX; intros Q; exact (NK k Q G K).
  - split; [lia|]. destruct CA as [[-> F]|(_ & _ & -> & _)]; [|lia].
    assert (SL : same_labels z st (set_g_dic (set_d_status None (g_dic st)) st)) by (apply same_labels_by; try reflexivity; auto).
    assert (EN : entry z st en t n) by (apply entry_iff; exact E).
    exists en, t. split; [apply SL; exact EN|]. split; [exact UP|]. split; [intros j x w _; apply SL|]. left. split; [|exact SL]. apply (finds_iff z true); [exact AW|eauto].
Qed.

(** ** Concrete cases *)

(** An object that reads the file of Cases.v (labels Seattle, San-Diego, new york) and
    registers user numbers. *)
Definition lb_calls : list call := [gdxUELRegisterStrStart; gdxUELRegisterStr (s2z "san-diego"); gdxUELRegisterStr (s2z "Paris ")].
Definition lb_st : gst := state_of (run rle_zlib lb_calls case_read).
Lemma lb_working : working rle_zlib lb_calls lb_st.
Proof.
  right. exists (s2z "f.gdx"), (s2z "a test"), 1, case_calls, case_answers, case_written, case_read. split; [exact case_reopened|].
  apply (during_test _ _ _ (answer_of (run rle_zlib lb_calls case_read))); vm_compute; reflexivity.
Qed.
Lemma case_working : working rle_zlib case_calls case_written.
Proof. left. exact case_writing. Qed.

Example C47_case : totals rle_zlib lb_st 4 2 /\ entry rle_zlib lb_st 2 (s2z "San-Diego") 1 /\ entry rle_zlib lb_st 4 (s2z "Paris") 2 /\ entry rle_zlib lb_st 3 (s2z "new york") (-1) /\
  finds rle_zlib lb_st (s2z "PARIS") 4 2.
Proof. repeat split; ans. Qed.
Example C47_case_thm : exists c h, totals rle_zlib lb_st c h /\ forall k, (exists s u, entry rle_zlib lb_st k s u) <-> 1 <= k <= c.
Proof. destruct (C47_enumeration _ _ _ lb_working) as (c & h & A & B & _). eauto. Qed.
Example C11_case_found : label_found rle_zlib case_written (s2z "SEATTLE  ") 1 /\ exists c h, totals rle_zlib case_written c h /\ forall i j s t, label rle_zlib case_written i s -> label rle_zlib case_written j t -> upper s = upper t -> i = j.
Proof. split; [eexists; ans|]. destruct (C11_labels_are_numbered _ _ _ case_working) as (c & h & A & _ & B & _). eauto. Qed.
Example C11_case_registering : exists st', exec rle_zlib (gdxUELRegisterStr (s2z "Rome")) lb_st = Done (ret_i 1 [3], st') /\ label_found rle_zlib st' (s2z "rome") 5 /\ label_found rle_zlib st' (s2z "paris") 4.
Proof. eexists. split; [vm_compute; reflexivity|]. split; (eexists; ans). Qed.
Example C12_case_rename : exists st', exec rle_zlib (gdxRenameUEL (s2z "PARIS") (s2z "Rome")) lb_st = Done (ret 0, st') /\ label rle_zlib st' 4 (s2z "Rome") /\ answers rle_zlib st' (gdxUMFindUEL (s2z "paris")) (ret_i 0 [-1; -1]).
Proof. eexists. split; [vm_compute; reflexivity|]. split; [eexists; ans|ans]. Qed.
Example C12_case_refused : exec rle_zlib (gdxRenameUEL (s2z "PARIS") (s2z "New York")) lb_st = Done (ret 3, lb_st) /\ exec rle_zlib (gdxRenameUEL (s2z "nobody") (s2z "Rome")) lb_st = Done (ret 2, lb_st).
Proof. split; vm_compute; reflexivity. Qed.
Example C13_case_refused : exists st', exec rle_zlib (gdxUELRegisterStr (s2z "both "" and '")) lb_st = Done (ret 0, st') /\ refused_call rle_zlib lb_st st' (ret 0).
Proof.
  eexists. split; [vm_compute; reflexivity|]. eapply (C13_bad_labels_are_refused rle_zlib lb_st (gdxUELRegisterStr (s2z "both "" and '")) (s2z "both "" and '")); [unfold registers; auto| |vm_compute; reflexivity].
  intros (_ & _ & Q). apply Q. split; vm_compute; tauto.
Qed.
Example C13_case_good : well_formed (s2z "San-Diego") /\ trim_right (s2z "San-Diego") = s2z "San-Diego".
Proof. eapply (C13_labels_are_well_formed _ _ _ 2 _ lb_working). eexists. ans. Qed.
Example C13_case_exact : g_mode lb_st = f_str_elem /\ exists st', exec rle_zlib (gdxUELRegisterStr (s2z "it's fine")) lb_st = Done (ret_i 1 [3], st').
Proof. split; [vm_compute; reflexivity|ans]. Qed.
Example C14_case_known : exists st', exec rle_zlib (gdxUELRegisterStr (s2z "SAN-DIEGO")) lb_st = Done (ret_i 1 [1], st').
Proof. ans. Qed.
Example C14_case_new : exists st', exec rle_zlib (gdxUELRegisterStr (s2z "New York")) lb_st = Done (ret_i 1 [3], st') /\ gets rle_zlib st' 3 (s2z "new york") /\ finds rle_zlib lb_st (s2z "New York") 3 (-1).
Proof. eexists. split; [vm_compute; reflexivity|]. split; ans. Qed.
Example C14_case_consecutive : forall k k' s s', entry rle_zlib lb_st k s 2 -> entry rle_zlib lb_st k' s' 2 -> k = k'.
Proof.
  intros k k' s s' A B. assert (T : totals rle_zlib lb_st 4 2) by ans.
  destruct (C14_numbers_are_consecutive _ _ _ _ _ lb_working ltac:(unfold no_map, lb_calls; repeat constructor) T) as (_ & _ & X). eapply X; [exact A|exact B|discriminate].
Qed.

(** Numbers of one's own. *)
Definition lm_calls : list call := [gdxUELRegisterMapStart; gdxUELRegisterMap 7 (s2z "seattle"); gdxUELRegisterMap 4 (s2z "Paris"); gdxUELRegisterMap 4 (s2z "Rome")].
Definition lm_st : gst := state_of (run rle_zlib lm_calls case_read).
Lemma lm_working : working rle_zlib lm_calls lm_st.
Proof.
  right. exists (s2z "f.gdx"), (s2z "a test"), 1, case_calls, case_answers, case_written, case_read. split; [exact case_reopened|].
  apply (during_test _ _ _ (answer_of (run rle_zlib lm_calls case_read))); vm_compute; reflexivity.
Qed.
Example C15_case : exists r st', exec rle_zlib (gdxUELRegisterMap 5 (s2z "SEATTLE")) lm_st = Done (r, st') /\ refused_call rle_zlib lm_st st' r.
Proof.
  assert (F : finds rle_zlib lm_st (s2z "SEATTLE") 1 7) by ans.
  assert (E : exists st', exec rle_zlib (gdxUELRegisterMap 5 (s2z "SEATTLE")) lm_st = Done (ret 0, st')) by ans. pose proof lm_working as W.
  revert F E W. generalize lm_st. intros s F (st' & E) W. exists (ret 0), st'. split; [exact E|].
  eapply (C15_conflicts_are_refused rle_zlib lm_calls s (s2z "SEATTLE") 5 1 7); [exact W|exact F|discriminate|discriminate|exact E].
Qed.
(** Two labels do get the same user number when the program asks for it: the second half of
    C15 does not hold. *)
Theorem C15_two_labels_refuted : exists cs st, working rle_zlib cs st /\ entry rle_zlib st 4 (s2z "Paris") 4 /\ entry rle_zlib st 5 (s2z "Rome") 4.
Proof. exists lm_calls, lm_st. split; [exact lm_working|]. split; ans. Qed.
Example C15_case_accepted : exists st', exec rle_zlib (gdxUELRegisterMap 9 (s2z "San-Diego")) lm_st = Done (ret 1, st') /\ gets rle_zlib st' 9 (s2z "San-Diego") /\ gets rle_zlib st' 7 (s2z "Seattle").
Proof. eexists. split; [vm_compute; reflexivity|]. split; ans. Qed.
Example C15_case_one : forall u s, gets rle_zlib lm_st u s -> upper s = upper (s2z "Rome") -> u = 4.
Proof. intros u s G UP. assert (R : gets rle_zlib lm_st 4 (s2z "Rome")) by ans. eapply (C15_one_number_per_label _ _ _ _ _ _ _ lm_working G R UP). Qed.

Print Assumptions C47_enumeration.
Print Assumptions C11_labels_are_numbered.
Print Assumptions C11_labels_stay.
Print Assumptions C11_registering.
Print Assumptions C12_renaming.
Print Assumptions C13_labels_are_well_formed.
Print Assumptions C13_bad_labels_are_refused.
Print Assumptions C13_accepted_exactly.
Print Assumptions C14_registering.
Print Assumptions C14_numbers_stay.
Print Assumptions C14_same_again.
Print Assumptions C14_numbers_are_consecutive.
Print Assumptions C15_conflicts_are_refused.
Print Assumptions C15_one_number_per_label.
Print Assumptions C15_accepted.
Print Assumptions C15_two_labels_refuted.
