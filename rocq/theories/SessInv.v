(** * SessInv: what every sequence of calls keeps true of the dictionaries

    Invariants of the tables of an object between opening and closing a file, whatever
    calls are made, obtained from the list of elementary changes (Footprint.v). *)

From Coq Require Import String.
From Verif Require Import Base Prim Values Records LinkedData StrHash IntMap Strings AStream BufStream State
  FileImage ApiCore ApiFile ApiWrite ApiRead Api FileFacts StreamFacts OpenFacts DicInv Footprint.
Open Scope Z_scope.
Open Scope list_scope.

(** ** The changes, table by table *)

Section M.
Context (cc : call).

(** What a call may change of a symbol, entry [k] of the table. *)
Definition sym_step (k : Z) (a b : sym) : Prop :=
  sym_keeps a b \/
  (exists ids v, cc = gdxSymbolSetDomain ids /\ b = set_sy_doms v a) \/
  (exists ids ns, cc = gdxSymbolSetDomainX k ids /\ b = set_sy_dstrs (Some ns) a) \/
  (exists j t, cc = gdxSymbolAddComment j t /\ (0 < j -> k = j) /\ b = set_sy_comments (sy_comments a ++ [cut255 t]) a).
Definition sym_grows (a b : sym) : Prop :=
  sy_dim b = sy_dim a /\ sy_type b = sy_type a /\ sy_uinfo b = sy_uinfo a /\ sy_expl b = sy_expl a /\
  sy_comp b = sy_comp a /\ exists l, sy_comments b = sy_comments a ++ l.
Lemma sym_step_grows : forall k a b, sym_step k a b -> sym_grows a b.
Proof.
  intros k a b [(H1 & H2 & H3 & H4 & H5 & H6 & _)|[(ids & v & _ & ->)|[(ids & ns & _ & ->)|(j & t & _ & _ & ->)]]].
  1: unfold sym_grows; rewrite H1, H2, H3, H4, H5, H6. all: repeat split.
  1, 2, 3: exists []; symmetry; apply app_nil_r. eexists. reflexivity.
Qed.

Ltac put := match goal with |- context [upd_sym ?n _ ?d] =>
  unfold upd_sym; destruct (znth (d_names d) (n - 1)) as [e|] eqn:E; [|left; reflexivity];
  right; right; eexists n, e, _; split; [assumption|]; split; [|reflexivity] end.
Lemma names_cases : forall d d', datom cc d d' ->
  d_names d' = d_names d \/
  (exists name s, In name (names_of cc) /\ sl_find true (d_names d) name = None /\ good_ident name = true /\ new_sym d s /\
     d_names d' = d_names d ++ [(name, s)]) \/
  (exists n e s, znth (d_names d) (n - 1) = Some e /\ sym_step n (snd e) s /\ d_names d' = zset (n - 1) (fst e, s) (d_names d)).
Proof.
  intros d d' A. destruct A; try (left; reflexivity).
  - right; left. exists name, s. split; [assumption|]. split; [|auto].
    unfold sym_find in H0. destruct (sl_find true (d_names d) name) as [k|] eqn:E; [|reflexivity].
    apply sl_find_range in E. lia.
  - put. left. apply H. unfold get_sym. rewrite E. reflexivity.
  - put. right; left. eauto.
  - put. right; right; left. eauto.
  - put. right; right; right. eauto 6.
  - left. unfold uel_add. destruct (sl_add _ _ _ _). reflexivity.
  - left. unfold map_status. rewrite H. reflexivity.
Qed.

Lemma uels_cases : forall d d', datom cc d d' ->
  (d_uels d' = d_uels d /\ d_usr d' = d_usr d) \/
  (exists s, In s (List.map trim_right (labels_of cc)) /\ good_uel s = true /\ trim_right s = s /\ sl_find true (d_uels d) s = None /\
     d_uels d' = d_uels d ++ [(s, -1)] /\ d_usr d' = d_usr d) \/
  (exists n e s o w, (cc = gdxRenameUEL o w /\ s = trim_right w /\ uel_find d (trim_right o) = n + 1) /\ good_uel s = true /\ trim_right s = s /\ sl_find true (d_uels d) s = None /\ znth (d_uels d) n = Some e /\
     d_uels d' = zset n (s, snd e) (d_uels d) /\ d_usr d' = d_usr d) \/
  (exists en n m e, numbers cc = true /\ znth (d_uels d) (en - 1) = Some e /\ snd e < 0 /\ im_set (d_usr d) n en = Done m /\ 0 <= n <= INT_MAX /\
     (maps cc = true \/ n = im_high (d_usr d) + 1) /\ d_uels d' = zset (en - 1) (fst e, n) (d_uels d) /\ d_usr d' = m) \/
  (exists n e, znth (d_uels d) (im_get (d_usr d) n - 1) = Some e /\
     d_uels d' = zset (im_get (d_usr d) n - 1) (fst e, n) (d_uels d) /\ d_usr d' = d_usr d).
Proof.
  intros d d' A. destruct A; try (left; split; reflexivity); try solve [left; unfold upd_sym; destruct (znth _ _); split; reflexivity].
  - unfold uel_add. destruct (sl_add true (d_uels d) s (-1)) as [l k] eqn:SA. apply sl_add_cases in SA.
    cbn [snd]. destruct SA as [(-> & F)|(-> & F & ->)].
    + left. destruct d; split; reflexivity.
    + right; left. exists s. repeat split; try assumption.
  - right; right; left. exists (n - 1), e, s, o, w. repeat split; try assumption; try lia.
    unfold uel_find in *. destruct (sl_find true (d_uels d) s) as [k|] eqn:E; [|reflexivity]. apply sl_find_range in E. lia.
  - right; right; right; left. exists en, n, m, e. repeat split; try assumption; lia.
  - right; right; right; right. exists n, e. repeat split; assumption.
  - left. unfold map_status. rewrite H. split; reflexivity.
Qed.

Lemma acro_check_free : forall name ix l k, acro_check name ix l k = AcFree ->
  acro_index (fun a => ac_map a =? ix) l k < 0 /\ acro_index (fun a => same_text true (ac_name a) name) l k < 0.
Proof.
  induction l as [| a l IH]; intros k; cbn [acro_check acro_index]; [lia|].
  destruct (same_text true (ac_name a) name); [destruct (ac_map a =? ix); discriminate|].
  destruct (ac_map a =? ix); [discriminate|]. apply IH.
Qed.

Lemma acros_cases : forall d d', datom cc d d' ->
  d_acros d' = d_acros d \/
  (exists a, acro_entry (ac_map a) (d_acros d) < 0 /\
     (ac_name a = [] \/ (exists t, cc = gdxAcronymAdd (ac_name a) t (ac_map a)) /\ acro_named (ac_name a) (d_acros d) < 0) /\
     d_acros d' = d_acros d ++ [a]) \/
  (exists n a b, znth (d_acros d) n = Some a /\ ac_map b = ac_map a /\
     (ac_name b = ac_name a /\ ac_text b = ac_text a \/
      (exists t ix, cc = gdxAcronymSetInfo (n + 1) (ac_name b) t ix) /\ acro_named (ac_name b) (d_acros d) < 0 /\ (1 <=? sym_find d (ac_name b)) = false) /\
     d_acros d' = zset n b (d_acros d)).
Proof.
  intros d d' A. destruct A; try (left; reflexivity); try solve [left; unfold upd_sym; destruct (znth _ _); reflexivity].
  - left. unfold uel_add. destruct (sl_add _ _ _ _). reflexivity.
  - left. unfold map_status. rewrite H. reflexivity.
  - unfold check_entry. destruct (Z.ltb_spec (acro_entry m (d_acros d)) 0).
    + right; left. eexists. split; [|split; [|reflexivity]]; cbn; auto.
    + left. destruct d; reflexivity.
  - right; left. eexists. split; [|split; [|reflexivity]]; cbn.
    + apply (acro_check_free _ _ _ _ H0).
    + right. split; [eauto|]. apply (acro_check_free _ _ _ _ H0).
  - right; left. eexists. split; [|split; [|reflexivity]]; cbn; auto.
  - right; right. eexists _, _, _. split; [eassumption|]. split; [|split; [|reflexivity]]; [reflexivity|left; split; reflexivity].
  - right; right. eexists _, _, _. split; [eassumption|]. split; [|split; [|reflexivity]]; [reflexivity|right; cbn]. split; [|split; [lia|assumption]]. exists t, ix. rewrite H. f_equal. lia.
  - right; right. eexists _, _, _. split; [eassumption|]. split; [|split; [|reflexivity]]; [reflexivity|left; split; reflexivity].
Qed.

Lemma texts_cases : forall d d', datom cc d d' ->
  d_texts d' = d_texts d \/
  (exists l t x, cc = gdxAddSetText x /\ t = make_good (cut255 x) /\ d_texts d = Some l /\ sl_find false l t = None /\ d_texts d' = Some (l ++ [(t, 0)])) \/
  (exists l n t k, cc = gdxSetTextNodeNr n k /\ d_texts d = Some l /\ znth l n = Some (t, 0) /\ d_texts d' = Some (zset n (t, k) l)).
Proof.
  intros d d' A. destruct A; try (left; reflexivity); try solve [left; unfold upd_sym; destruct (znth _ _); reflexivity].
  - left. unfold uel_add. destruct (sl_add _ _ _ _). reflexivity.
  - left. unfold map_status. rewrite H. reflexivity.
  - destruct (sl_add false l _ 0) as [l' k] eqn:SA. apply sl_add_cases in SA. cbn [fst].
    destruct SA as [(-> & F)|(-> & F & ->)].
    + left. cbn. congruence.
    + right; left. exists l, (make_good (cut255 t)), t. repeat split; assumption.
  - right; right. exists l, n, t, k. repeat split; assumption.
Qed.

Lemma filts_cases : forall d d', datom cc d d' ->
  (d_filts d' = d_filts d /\ (im_high (d_usr d') = im_high (d_usr d) \/ exists n en, im_set (d_usr d) n en = Done (d_usr d') /\ 0 <= n <= INT_MAX)) \/
  (exists n, cc = gdxFilterRegisterStart n /\ 1 <= n /\ d_filts d' = drop_filter n (d_filts d) ++ [mkFilt n (im_high (d_usr d)) [] false] /\ d_usr d' = d_usr d) \/
  (exists f g, In f (d_filts d) /\ fl_nr g = fl_nr f /\ fl_max g = fl_max f /\ d_usr d' = d_usr d /\
     (cc = gdxFilterRegisterDone /\ fl_map g = fl_map f \/ exists n, cc = gdxFilterRegister n /\ 1 <= n <= fl_max f /\ fl_map g = n :: fl_map f) /\ d_filts d' = put_filter g (d_filts d)).
Proof.
  intros d d' A. destruct A; try (left; split; [reflexivity|left; reflexivity]); try solve [left; unfold upd_sym; destruct (znth _ _); split; auto].
  - left. unfold uel_add. destruct (sl_add _ _ _ _). split; auto.
  - left. split; [reflexivity|]. right. exists n, en. split; [assumption|lia].
  - left. unfold map_status. rewrite H. split; auto.
  - right; left. exists n. repeat split; assumption.
  - right; right. exists f, (set_fl_map l f). repeat split; try assumption. right. exists n. split; [assumption|]. split; [assumption|].
    unfold bits_add in H3. destruct (n <? 0) eqn:E; [lia|]. destruct (n >? INT_MAX - 8); [discriminate|]. injection H3 as <-. reflexivity.
  - right; right. exists f. eexists. split; [assumption|]. split; [|split; [|split; [|split; [|reflexivity]]]]; auto.
Qed.

Lemma dstrs_cases : forall d d', datom cc d d' ->
  d_dstrs d' = d_dstrs d \/ exists n ids id, cc = gdxSymbolSetDomainX n ids /\ In id ids /\ good_ident id = true /\ sl_find true (d_dstrs d) id = None /\ d_dstrs d' = d_dstrs d ++ [(id, tt)].
Proof.
  intros d d' A. destruct A; try (left; reflexivity); try solve [left; unfold upd_sym; destruct (znth _ _); reflexivity].
  - left. unfold uel_add. destruct (sl_add _ _ _ _). reflexivity.
  - left. unfold map_status. rewrite H. reflexivity.
  - right. eauto 10.
Qed.

Lemma flags_keep : forall d d', datom cc d d' ->
  d_nn d' = d_nn d /\ d_un d' = d_un d /\ d_dn d' = d_dn d /\ d_uelcnt d' = d_uelcnt d /\ d_maptext d' = d_maptext d.
Proof.
  intros d d' A. destruct A; try (repeat split; reflexivity); try solve [unfold upd_sym; destruct (znth _ _); repeat split; reflexivity].
  - unfold uel_add. destruct (sl_add _ _ _ _). repeat split; reflexivity.
  - unfold map_status. rewrite H. repeat split; reflexivity.
Qed.

(** ** Tables without repetitions *)

Lemma distinct_nil : forall {T} ci, distinct ci (@nil (str * T)).
Proof. intros T ci i j a b H. apply znth_Some in H. unfold zlen in H. cbn in H. lia. Qed.

Lemma distinct_snoc : forall {T} ci (l : list (str * T)) s t, distinct ci l -> sl_find ci l s = None -> distinct ci (l ++ [(s, t)]).
Proof.
  intros T ci l s t D F i j a b A B S. unfold sl_find in F. rewrite sl_find_from_None in F. rewrite znth_snoc in A, B.
  destruct A as [A|[-> ->]], B as [B|[-> ->]]; try reflexivity.
  - eapply D; eassumption.
  - cbn [fst] in S. rewrite (F _ _ A) in S. discriminate.
  - cbn [fst] in S. rewrite same_text_sym, (F _ _ B) in S. discriminate.
Qed.

Lemma znth_zset : forall {A} (l : list A) n a i x, znth (zset n a l) i = Some x ->
  (i = n /\ x = a) \/ (i <> n /\ znth l i = Some x).
Proof.
  intros A l n a i x H. destruct (Z.eq_dec i n) as [->|N].
  - left. split; [reflexivity|]. pose proof (znth_Some _ _ _ H) as R. rewrite zset_length in R.
    rewrite znth_zset_eq in H by assumption. congruence.
  - right. split; [assumption|]. rewrite znth_zset_neq in H by congruence. assumption.
Qed.

Lemma distinct_zset_same : forall {T} ci (l : list (str * T)) n e t, distinct ci l -> znth l n = Some e -> distinct ci (zset n (fst e, t) l).
Proof.
  intros T ci l n e t D E i j a b A B S. apply znth_zset in A, B.
  destruct A as [[-> ->]|[N A]], B as [[-> ->]|[N' B]]; try reflexivity; cbn [fst] in S; eapply D; eassumption.
Qed.

Lemma distinct_zset_new : forall {T} ci (l : list (str * T)) n s t, distinct ci l -> sl_find ci l s = None -> distinct ci (zset n (s, t) l).
Proof.
  intros T ci l n s t D F i j a b A B S. unfold sl_find in F. rewrite sl_find_from_None in F. apply znth_zset in A, B.
  destruct A as [[-> ->]|[N A]], B as [[-> ->]|[N' B]]; try reflexivity; cbn [fst] in S.
  - rewrite same_text_sym, (F _ _ B) in S. discriminate.
  - rewrite (F _ _ A) in S. discriminate.
  - eapply D; eassumption.
Qed.

(** ** Symbols *)

Definition names_inv (d : dic) : Prop :=
  distinct true (d_names d) /\ forall i e, znth (d_names d) i = Some e -> good_ident (fst e) = true.

Lemma names_step : forall d d', datom cc d d' -> names_inv d -> names_inv d'.
Proof.
  intros d d' A [D G]. unfold names_inv. destruct (names_cases _ _ A) as [->|[(name & s & NM & F & GI & N & ->)|(n & e & s & E & K & ->)]].
  - split; assumption.
  - split; [apply distinct_snoc; assumption|]. intros i e H. apply znth_snoc in H. destruct H as [H|[_ ->]]; [eapply G; exact H|exact GI].
  - split; [apply distinct_zset_same; assumption|]. intros i x H. apply znth_zset in H.
    destruct H as [[-> ->]|[_ H]]; [cbn; eapply G; exact E|eapply G; exact H].
Qed.

(** A symbol is of one of the kinds that can be added; an alias refers to an earlier set
    or alias, or to the universe. *)
Definition sym_inv (d : dic) (n : Z) (s : sym) : Prop :=
  (dt_set <= sy_type s <= dt_equ /\ (sy_dim s <= 20)%nat /\ exists t, sy_expl s = make_good (assign_expl t)) \/
  (sy_type s = dt_alias /\ sy_uinfo s = 0 /\ sy_dim s = 1%nat /\ sy_expl s = s2z "Aliased with *") \/
  (sy_type s = dt_alias /\ 1 <= sy_uinfo s < n /\ exists t nm, get_sym d (sy_uinfo s) = Some t /\ sym_name d (sy_uinfo s) = Some nm /\
     (sy_type t = dt_set \/ sy_type t = dt_alias) /\ sy_dim s = sy_dim t /\ alias_text nm = Done (sy_expl s)).
Definition syms_inv (d : dic) : Prop := forall n s, get_sym d n = Some s -> sym_inv d n s.

Lemma get_sym_znth : forall d n s, get_sym d n = Some s <-> exists nm, znth (d_names d) (n - 1) = Some (nm, s).
Proof.
  intros d n s. unfold get_sym. destruct (znth (d_names d) (n - 1)) as [[nm x]|]; cbn; split; try discriminate.
  - intros H. injection H as ->. eauto.
  - intros (m & H). injection H as -> ->. reflexivity.
  - intros (m & H). discriminate.
Qed.

(** The symbols of [d] are in [d'], unchanged but for what may be added to them. *)
Definition names_grow (d d' : dic) : Prop :=
  forall i e, znth (d_names d) i = Some e -> exists e', znth (d_names d') i = Some e' /\ fst e' = fst e /\ sym_grows (snd e) (snd e').

Lemma sym_grows_refl : forall s, sym_grows s s.
Proof. intros s. repeat split. exists []. rewrite app_nil_r. reflexivity. Qed.
Lemma sym_grows_trans : forall a b c, sym_grows a b -> sym_grows b c -> sym_grows a c.
Proof.
  intros a b c (A1 & A2 & A3 & A4 & A5 & l & A6) (B1 & B2 & B3 & B4 & B5 & k & B6). repeat split; try congruence.
  exists (l ++ k). rewrite B6, A6, app_assoc. reflexivity.
Qed.
Lemma names_grow_refl : forall d, names_grow d d.
Proof. intros d i e H. exists e. repeat split; auto. exists []. rewrite app_nil_r. reflexivity. Qed.
Lemma names_grow_trans : forall a b c, names_grow a b -> names_grow b c -> names_grow a c.
Proof.
  intros a b c A B i e H. destruct (A i e H) as (e1 & H1 & F1 & K1). destruct (B i e1 H1) as (e2 & H2 & F2 & K2).
  exists e2. split; [exact H2|]. split; [congruence|]. eapply sym_grows_trans; eassumption.
Qed.
Lemma names_grow_step : forall d d', datom cc d d' -> names_grow d d'.
Proof.
  intros d d' A i e H. destruct (names_cases _ _ A) as [->|[(name & s & NM & F & GI & N & ->)|(n & e0 & s & E & K & ->)]].
  - exists e. repeat split; auto. exists []. rewrite app_nil_r. reflexivity.
  - exists e. rewrite znth_app_l by (apply znth_Some in H; lia). split; [exact H|]. split; [reflexivity|apply sym_grows_refl].
  - apply sym_step_grows in K. destruct (Z.eq_dec i (n - 1)) as [->|NE].
    + exists (fst e0, s). rewrite znth_zset_eq by (eapply znth_Some; exact E). replace e with e0 by congruence. auto.
    + exists e. rewrite znth_zset_neq by congruence. split; [exact H|]. split; [reflexivity|apply sym_grows_refl].
Qed.

Lemma sym_inv_mono : forall d d' n a b, names_grow d d' -> sym_grows a b -> sym_inv d n a -> sym_inv d' n b.
Proof.
  intros d d' n a b G (K1 & K2 & K3 & K4 & K5 & _) [H|[H|(H1 & H2 & t & nm & H3 & H4 & H5 & H6 & H7)]]; unfold sym_inv; rewrite K1, K2, K3, K4.
  - left. exact H.
  - right; left. exact H.
  - right; right. split; [exact H1|]. split; [exact H2|].
    apply get_sym_znth in H3. destruct H3 as (nm' & H3). unfold sym_name in H4. rewrite H3 in H4. cbn in H4. injection H4 as ->.
    destruct (G _ _ H3) as ([nm2 t2] & E & F & K). cbn [fst snd] in *. subst nm2. exists t2, nm.
    unfold get_sym, sym_name. rewrite E. cbn. destruct K as (K11 & K12 & _). rewrite K11, K12. auto.
Qed.

Lemma syms_step : forall d d', datom cc d d' -> syms_inv d -> syms_inv d'.
Proof.
  intros d d' A I n s H. pose proof (names_grow_step _ _ A) as G. apply get_sym_znth in H. destruct H as (nm & H).
  destruct (names_cases _ _ A) as [E|[(name & s0 & NM & F & GI & N & E)|(k & e0 & s0 & E0 & K & E)]]; rewrite E in H.
  - eapply sym_inv_mono; [exact G|apply sym_grows_refl|]. apply I. apply get_sym_znth. eauto.
  - apply znth_snoc in H. destruct H as [H|[NE EQ]].
    + eapply sym_inv_mono; [exact G|apply sym_grows_refl|]. apply I. apply get_sym_znth. eauto.
    + injection EQ as -> ->. destruct N as (_ & _ & _ & _ & [N|[N|(N1 & t & nm & N2 & N3 & N4)]]).
      * left; exact N.
      * right; left; exact N.
      * eapply sym_inv_mono; [exact G|apply sym_grows_refl|]. right; right. split; [exact N1|].
        split; [|exists t, nm; tauto]. apply get_sym_znth in N2. destruct N2 as (m & N2). apply znth_Some in N2. lia.
  - apply sym_step_grows in K. apply znth_zset in H. destruct H as [[NE EQ]|[_ H]].
    + injection EQ as -> ->. eapply sym_inv_mono; [exact G|exact K|]. apply I. apply get_sym_znth. exists (fst e0). rewrite NE, <- surjective_pairing. exact E0.
    + eapply sym_inv_mono; [exact G|apply sym_grows_refl|]. apply I. apply get_sym_znth. eauto.
Qed.

(** ** Labels *)

Definition labels_inv (d : dic) : Prop :=
  distinct true (d_uels d) /\ forall i e, znth (d_uels d) i = Some e -> good_uel (fst e) = true /\ trim_right (fst e) = fst e.

Lemma labels_step : forall d d', datom cc d d' -> labels_inv d -> labels_inv d'.
Proof.
  intros d d' A [D G]. unfold labels_inv.
  destruct (uels_cases _ _ A) as [[-> _]|[(s & LB & G1 & G2 & F & -> & _)|[(n & e & s & o & w & RT & G1 & G2 & F & E & -> & _)|
    [(en & n & m & e & NB & E & _ & _ & _ & _ & -> & _)|(n & e & E & -> & _)]]]].
  - split; assumption.
  - split; [apply distinct_snoc; assumption|]. intros i e H. apply znth_snoc in H. destruct H as [H|[_ ->]]; [eapply G; exact H|split; assumption].
  - split; [apply distinct_zset_new; assumption|]. intros i x H. apply znth_zset in H. destruct H as [[-> ->]|[_ H]]; [split; assumption|eapply G; exact H].
  - split; [apply distinct_zset_same; assumption|]. intros i x H. apply znth_zset in H. destruct H as [[-> ->]|[_ H]]; [cbn; eapply G; exact E|eapply G; exact H].
  - split; [apply distinct_zset_same; assumption|]. intros i x H. apply znth_zset in H. destruct H as [[-> ->]|[_ H]]; [cbn; eapply G; exact E|eapply G; exact H].
Qed.

(** ** User numbers *)

Record user_inv (M : bool) (d : dic) : Prop := mkUI {
  ui_map : im_inv (d_usr d);
  ui_get : forall n, im_get (d_usr d) n = -1 \/
             (0 <= n <= im_high (d_usr d) /\ exists s, znth (d_uels d) (im_get (d_usr d) n - 1) = Some (s, n));
  ui_num : forall i e, znth (d_uels d) i = Some e -> snd e = -1 \/ 0 <= snd e <= im_high (d_usr d);
  ui_back : M = false -> forall i e, znth (d_uels d) i = Some e -> 0 <= snd e -> im_get (d_usr d) (snd e) = i + 1;
  ui_full : M = false -> forall n, 1 <= n <= im_high (d_usr d) -> 1 <= im_get (d_usr d) n
}.

Lemma user_step : forall M d d', M = true \/ maps cc = false -> datom cc d d' -> user_inv M d -> user_inv M d'.
Proof.
  intros M d d' AL A [I1 I2 I3 I4 I5].
  destruct (uels_cases _ _ A) as [[E U]|[(s & LB & G1 & G2 & F & E & U)|[(n & e & s & o & w & RT & G1 & G2 & F & E0 & E & U)|
    [(en & n & m & e & NB & E0 & NG & S & R & MM & E & U)|(n & e & E0 & E & U)]]]].
  - constructor; rewrite ?E, ?U; assumption.
  - constructor; rewrite ?E, ?U; auto.
    + intros n. destruct (I2 n) as [H|(B & s0 & H)]; [left; exact H|right]. split; [exact B|]. exists s0. apply znth_snoc. left. exact H.
    + intros i x H. apply znth_snoc in H. destruct H as [H|[_ ->]]; [eapply I3; exact H|left; reflexivity].
    + intros M0 i x H N. apply znth_snoc in H. destruct H as [H|[_ ->]]; [eapply I4; eassumption|cbn in N; lia].
  - constructor; rewrite ?E, ?U; auto.
    + intros k. destruct (I2 k) as [H|(B & s0 & H)]; [left; exact H|right]. split; [exact B|].
      destruct (Z.eq_dec (im_get (d_usr d) k - 1) n) as [Q|Q].
      * exists s. rewrite Q. rewrite znth_zset_eq by (eapply znth_Some; exact E0). rewrite Q, E0 in H. injection H as ->. reflexivity.
      * exists s0. rewrite znth_zset_neq by congruence. exact H.
    + intros i x H. apply znth_zset in H. destruct H as [[-> ->]|[_ H]]; [cbn; eapply I3; exact E0|eapply I3; exact H].
    + intros M0 i x H N. apply znth_zset in H. destruct H as [[-> ->]|[_ H]]; [cbn in *; eapply I4; eassumption|eapply I4; eassumption].
  - destruct (im_set_spec (d_usr d) n en I1 R) as (m' & S' & J1 & J2 & J3). rewrite S in S'. injection S' as <-.
    pose proof (znth_Some _ _ _ E0) as RG. destruct I1 as [I1a I1b].
    constructor; rewrite ?E, ?U; auto.
    + intros k. rewrite J2, J3. destruct (Z.eqb_spec k n) as [->|NE].
      * right. split; [lia|]. exists (fst e). apply znth_zset_eq. exact RG.
      * destruct (I2 k) as [H|(B & s0 & H)]; [left; exact H|right]. split; [lia|]. exists s0.
        rewrite znth_zset_neq; [exact H|]. intros Q. rewrite <- Q, E0 in H. injection H as ->. cbn in NG. lia.
    + intros i x H. rewrite J3. apply znth_zset in H. destruct H as [[-> ->]|[_ H]]; [cbn; lia|].
      destruct (I3 _ _ H); [left; assumption|right; lia].
    + intros M0 i x H N. rewrite J2. destruct MM as [MM|MM]; [exfalso; destruct AL; congruence|].
      apply znth_zset in H. destruct H as [[-> ->]|[_ H]].
      * cbn [snd]. rewrite Z.eqb_refl. lia.
      * destruct (Z.eqb_spec (snd x) n) as [Q|Q]; [|apply I4; assumption].
        destruct (I3 _ _ H); lia.
    + intros M0 k K. rewrite J2. destruct MM as [MM|MM]; [exfalso; destruct AL; congruence|]. rewrite J3 in K.
      destruct (Z.eqb_spec k n); [lia|]. apply I5; [assumption|lia].
  - destruct (I2 n) as [H|(B & s0 & H)].
    + rewrite H in E0. discriminate.
    + rewrite H in E0. injection E0 as <-. cbn [fst] in E.
      assert (EQ : forall i, znth (zset (im_get (d_usr d) n - 1) (s0, n) (d_uels d)) i = znth (d_uels d) i).
      { intros i. destruct (Z.eq_dec i (im_get (d_usr d) n - 1)) as [->|NE].
        - rewrite H. apply znth_zset_eq. eapply znth_Some. exact H.
        - apply znth_zset_neq. congruence. }
      constructor; rewrite ?E, ?U; auto.
      * intros k. rewrite EQ. apply I2.
      * intros i x. rewrite EQ. apply I3.
      * intros M0 i x. rewrite EQ. apply I4. exact M0.
Qed.

(** Labels keep their numbers; a user number once given stays. *)
Definition labels_grow (d d' : dic) : Prop :=
  forall i e, znth (d_uels d) i = Some e -> exists e', znth (d_uels d') i = Some e' /\ (0 <= snd e -> snd e' = snd e).
Lemma labels_grow_refl : forall d, labels_grow d d.
Proof. intros d i e H. exists e. auto. Qed.
Lemma labels_grow_trans : forall a b c, labels_grow a b -> labels_grow b c -> labels_grow a c.
Proof.
  intros a b c A B i e H. destruct (A i e H) as (e1 & H1 & F1). destruct (B i e1 H1) as (e2 & H2 & F2).
  exists e2. split; [exact H2|]. intros N. rewrite F2; [auto|]. rewrite F1; auto.
Qed.
Lemma labels_grow_step : forall d d', forall M, user_inv M d -> datom cc d d' -> labels_grow d d'.
Proof.
  intros d d' M [I1 I2 I3 I4 I5] A i x H.
  destruct (uels_cases _ _ A) as [[E U]|[(s & LB & G1 & G2 & F & E & U)|[(n & e & s & o & w & RT & G1 & G2 & F & E0 & E & U)|
    [(en & n & m & e & NB & E0 & NG & S & R & MM & E & U)|(n & e & E0 & E & U)]]]]; rewrite E.
  - exists x. auto.
  - exists x. split; [apply znth_snoc; auto|auto].
  - destruct (Z.eq_dec i n) as [->|NE].
    + eexists. rewrite znth_zset_eq by (eapply znth_Some; exact E0). split; [reflexivity|]. cbn. congruence.
    + exists x. rewrite znth_zset_neq by congruence. auto.
  - destruct (Z.eq_dec i (en - 1)) as [->|NE].
    + eexists. rewrite znth_zset_eq by (eapply znth_Some; exact E0). split; [reflexivity|]. replace e with x in NG by congruence. lia.
    + exists x. rewrite znth_zset_neq by congruence. auto.
  - destruct (Z.eq_dec i (im_get (d_usr d) n - 1)) as [->|NE].
    + eexists. rewrite znth_zset_eq by (eapply znth_Some; exact E0). split; [reflexivity|]. cbn.
      destruct (I2 n) as [Q|(_ & s0 & Q)]; [rewrite Q in E0; discriminate|]. rewrite Q in H. injection H as <-. reflexivity.
    + exists x. rewrite znth_zset_neq by congruence. auto.
Qed.

(** ** Acronyms *)

Definition acros_inv (d : dic) : Prop := forall i j a b, znth (d_acros d) i = Some a -> znth (d_acros d) j = Some b ->
  ac_map a = ac_map b \/ (ac_name a <> [] /\ same_text true (ac_name a) (ac_name b) = true) -> i = j.

Lemma acro_index_none : forall p l n, 0 <= n -> acro_index p l n < 0 -> forall i a, znth l i = Some a -> p a = false.
Proof.
  induction l as [| x l IH]; intros n N H i a E; cbn [acro_index] in H.
  - apply znth_Some in E. unfold zlen in E. cbn in E. lia.
  - destruct (p x) eqn:PX; [lia|]. change (x :: l) with ([x] ++ l) in E. destruct (Z.eq_dec i 0) as [->|NE].
    + injection E as <-. exact PX.
    + pose proof (znth_Some _ _ _ E). rewrite znth_app_r in E by (cbn; lia). eapply (IH (n + 1)); [lia|exact H|exact E].
Qed.

Lemma same_text_nil : forall s, same_text true s [] = true -> s = [].
Proof. intros s H. apply same_text_spec in H. destruct s; [reflexivity|discriminate]. Qed.

Lemma acros_step : forall d d', datom cc d d' -> acros_inv d -> acros_inv d'.
Proof.
  intros d d' A I. unfold acros_inv. destruct (acros_cases _ _ A) as [->|[(a & F1 & F2 & ->)|(n & a & b & E & K1 & K2 & ->)]].
  - exact I.
  - assert (FA : forall i x, znth (d_acros d) i = Some x -> ac_map x <> ac_map a).
    { intros i x X. pose proof (acro_index_none _ _ 0 (Z.le_refl 0) F1 i x X) as Y. cbv beta in Y. lia. }
    assert (FB : ac_name a <> [] -> forall i x, znth (d_acros d) i = Some x -> same_text true (ac_name x) (ac_name a) = false).
    { intros NN. destruct F2 as [F2|[_ F2]]; [congruence|]. intros i x X. exact (acro_index_none _ _ 0 (Z.le_refl 0) F2 i x X). }
    intros i j x y X Y C. apply znth_snoc in X, Y. destruct X as [X|[-> ->]], Y as [Y|[-> ->]]; try reflexivity.
    + eapply I; eassumption.
    + exfalso. destruct C as [C|[C1 C2]]; [eapply FA; eassumption|]. destruct (ac_name a) as [|c r] eqn:NA.
      * apply same_text_nil in C2. congruence.
      * rewrite (FB ltac:(discriminate) _ _ X) in C2. discriminate.
    + exfalso. destruct C as [C|[C1 C2]]; [eapply FA; [exact Y|congruence]|].
      rewrite same_text_sym, (FB C1 _ _ Y) in C2. discriminate.
  - intros i j x y X Y C. apply znth_zset in X, Y. destruct X as [[-> ->]|[NX X]], Y as [[-> ->]|[NY Y]]; try reflexivity.
    + destruct K2 as [[K2 _]|(_ & K2 & _)]; [eapply I; [exact E|exact Y|rewrite <- K1, <- K2; exact C]|].
      destruct C as [C|[C1 C2]]; [eapply I; [exact E|exact Y|left; congruence]|].
      pose proof (acro_index_none _ _ 0 (Z.le_refl 0) K2 j y Y) as W. cbv beta in W. rewrite same_text_sym, W in C2. discriminate.
    + destruct K2 as [[K2 _]|(_ & K2 & _)]; [eapply I; [exact X|exact E|rewrite <- K1, <- K2; exact C]|].
      destruct C as [C|[C1 C2]]; [eapply I; [exact X|exact E|left; congruence]|].
      pose proof (acro_index_none _ _ 0 (Z.le_refl 0) K2 i x X) as W. cbv beta in W. rewrite W in C2. discriminate.
    + eapply I; eassumption.
Qed.

(** An acronym keeps its position and its index. *)
Definition acros_grow (d d' : dic) : Prop :=
  forall i a, znth (d_acros d) i = Some a -> exists b, znth (d_acros d') i = Some b /\ ac_map b = ac_map a.
Lemma acros_grow_refl : forall d, acros_grow d d.
Proof. intros d i e H. exists e. auto. Qed.
Lemma acros_grow_trans : forall a b c, acros_grow a b -> acros_grow b c -> acros_grow a c.
Proof.
  intros a b c A B i e H. destruct (A i e H) as (e1 & H1 & F1). destruct (B i e1 H1) as (e2 & H2 & F2).
  exists e2. split; [exact H2|congruence].
Qed.
Lemma acros_grow_step : forall d d', datom cc d d' -> acros_grow d d'.
Proof.
  intros d d' A i x H. destruct (acros_cases _ _ A) as [->|[(a & F1 & F2 & ->)|(n & a & b & E & K1 & K2 & ->)]].
  - eauto.
  - exists x. split; [apply znth_snoc; auto|reflexivity].
  - destruct (Z.eq_dec i n) as [->|NE].
    + exists b. rewrite znth_zset_eq by (eapply znth_Some; exact E). split; [reflexivity|congruence].
    + exists x. rewrite znth_zset_neq by congruence. auto.
Qed.

(** ** Element texts *)

Definition texts_inv (d : dic) : Prop := forall l, d_texts d = Some l -> distinct false l.
Definition texts_grow (d d' : dic) : Prop :=
  forall l, d_texts d = Some l -> exists l', d_texts d' = Some l' /\
    forall i e, znth l i = Some e -> exists e', znth l' i = Some e' /\ fst e' = fst e /\ (snd e <> 0 -> snd e' = snd e).
Lemma texts_grow_refl : forall d, texts_grow d d.
Proof. intros d l H. exists l. split; [exact H|]. intros i e E. exists e. auto. Qed.
Lemma texts_grow_trans : forall a b c, texts_grow a b -> texts_grow b c -> texts_grow a c.
Proof.
  intros a b c A B l H. destruct (A l H) as (l1 & H1 & F1). destruct (B l1 H1) as (l2 & H2 & F2). exists l2. split; [exact H2|].
  intros i e E. destruct (F1 i e E) as (e1 & E1 & G1 & G2). destruct (F2 i e1 E1) as (e2 & E2 & G3 & G4). exists e2. split; [exact E2|].
  split; [congruence|]. intros N. rewrite G4; [auto|]. rewrite G2; auto.
Qed.
Lemma texts_grow_step : forall d d', datom cc d d' -> texts_grow d d'.
Proof.
  intros d d' A l H. destruct (texts_cases _ _ A) as [->|[(l0 & t & xt & CT & TT & E & F & ->)|(l0 & n & t & k & CN & E & F & ->)]].
  - exists l. split; [exact H|]. intros i e X. exists e. auto.
  - replace l0 with l in * by congruence. eexists. split; [reflexivity|]. intros i e X. exists e. split; [apply znth_snoc; auto|auto].
  - replace l0 with l in * by congruence. eexists. split; [reflexivity|]. intros i e X. destruct (Z.eq_dec i n) as [->|NE].
    + eexists. rewrite znth_zset_eq by (eapply znth_Some; exact F). split; [reflexivity|]. rewrite F in X. injection X as <-. cbn. split; [reflexivity|lia].
    + exists e. rewrite znth_zset_neq by congruence. auto.
Qed.
Lemma texts_step : forall d d', datom cc d d' -> texts_inv d -> texts_inv d'.
Proof.
  intros d d' A I l H. destruct (texts_cases _ _ A) as [Q|[(l0 & t & xt & CT & TT & E & F & Q)|(l0 & n & t & k & CN & E & F & Q)]]; rewrite Q in H.
  - apply I. exact H.
  - injection H as <-. apply distinct_snoc; [apply I; exact E|exact F].
  - injection H as <-. apply (distinct_zset_same false l0 n (t, 0)); [apply I; exact E|exact F].
Qed.

(** ** Filters *)

Definition filts_inv (d : dic) : Prop :=
  NoDup (List.map fl_nr (d_filts d)) /\
  Forall (fun f => 1 <= fl_nr f /\ fl_max f <= im_high (d_usr d) /\ Forall (fun n => 1 <= n <= fl_max f) (fl_map f)) (d_filts d).

Lemma drop_filter_in : forall n l f, In f (drop_filter n l) -> In f l.
Proof. induction l as [|g l IH]; intros f H; cbn in *; [exact H|]. destruct (fl_nr g =? n); [right; exact H|]. destruct H; [left; assumption|right; auto]. Qed.
Lemma drop_filter_nodup : forall n l, NoDup (List.map fl_nr l) -> NoDup (List.map fl_nr (drop_filter n l)) /\ ~ In n (List.map fl_nr (drop_filter n l)).
Proof.
  induction l as [|g l IH]; intros H; cbn in *; [split; [constructor|tauto]|]. inversion H as [|x y N1 N2]; subst. destruct (IH N2) as [A B].
  destruct (Z.eqb_spec (fl_nr g) n) as [E|NE]; [split; [assumption|rewrite <- E; assumption]|]. cbn. split.
  - constructor; [|exact A]. intros I. apply N1. apply in_map_iff in I. destruct I as (f & E & I). apply in_map_iff. exists f. split; [exact E|eapply drop_filter_in; exact I].
  - intros [E|E]; [congruence|tauto].
Qed.
Lemma put_filter_nrs : forall g l, List.map fl_nr (put_filter g l) = List.map fl_nr l.
Proof.
  intros g l. unfold put_filter. rewrite map_map. apply map_ext. intros f. destruct (Z.eqb_spec (fl_nr f) (fl_nr g)); congruence.
Qed.

Lemma filts_step : forall d d', forall M, datom cc d d' -> user_inv M d -> filts_inv d -> filts_inv d'.
Proof.
  intros d d' M A [I1 _ _ _ _] [N F]. unfold filts_inv.
  destruct (filts_cases _ _ A) as [[E U]|[(n & CN & B & E & U)|(f & g & I & G1 & G2 & U & G3 & E)]]; rewrite E.
  - split; [exact N|]. eapply Forall_impl; [|exact F]. intros f (F1 & F2 & F3). split; [exact F1|]. split; [|exact F3].
    destruct U as [U|(n & en & U & R)]; [lia|]. destruct (im_set_spec (d_usr d) n en I1 R) as (m & S & _ & _ & H). rewrite U in S. injection S as <-. lia.
  - rewrite U. split.
    + rewrite map_app. cbn [List.map fl_nr]. destruct (drop_filter_nodup n _ N) as [X Y].
      replace (List.map fl_nr (drop_filter n (d_filts d)) ++ [n]) with (List.map fl_nr (drop_filter n (d_filts d)) ++ n :: []) by reflexivity.
      apply NoDup_Add with (a := n) (l := List.map fl_nr (drop_filter n (d_filts d))); [|split; assumption].
      rewrite <- (app_nil_r (List.map fl_nr (drop_filter n (d_filts d)))) at 1. apply Add_app.
    + apply Forall_app. split; [|constructor; [cbn; repeat split; try lia; constructor|constructor]].
      rewrite Forall_forall in *. intros f H. apply F. eapply drop_filter_in. exact H.
  - rewrite U, put_filter_nrs. split; [exact N|]. rewrite Forall_forall in *. intros h H. unfold put_filter in H. apply in_map_iff in H.
    destruct H as (x & H & IX). destruct (fl_nr x =? fl_nr g); subst h; [|apply F; exact IX].
    destruct (F f I) as (F1 & F2 & F3). rewrite G1, G2. split; [exact F1|]. split; [exact F2|].
    destruct G3 as [[_ ->]|(n & _ & R & ->)]; [exact F3|]. constructor; [exact R|exact F3].
Qed.

(** ** Domain names *)

Definition dstrs_grow (d d' : dic) : Prop := exists l, d_dstrs d' = d_dstrs d ++ l.
Lemma dstrs_grow_step : forall d d', datom cc d d' -> dstrs_grow d d'.
Proof.
  intros d d' A. destruct (dstrs_cases _ _ A) as [E|(n & ids & id & _ & _ & _ & _ & E)]; unfold dstrs_grow; rewrite E; [exists []; rewrite app_nil_r; reflexivity|eauto].
Qed.
End M.
