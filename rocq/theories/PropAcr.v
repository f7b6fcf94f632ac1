(** * C07, C40: acronyms in the values of records

    A value of an acronym that is written is read as a value of an acronym; which one, the
    reader's table of acronyms says, and the table gives every acronym of the file one
    number, different ones different numbers. *)

From Coq Require Import String.
From Coq Require Import SpecFloat.
From Verif Require Import Base Prim Values FloatAcr Records LinkedData StrHash IntMap Strings AStream BufStream State
  FileImage ApiCore ApiFile ApiWrite ApiRead Api FileFacts BlockFacts StreamFacts OpenFacts DicInv WriteInv WriteSteps Journal WriteCalls WriteTrace
  Footprint SessInv FileFlow Sessions Vocab Reopen ReadFacts ReadRecs ReadLoops Cases PropNames PropMeta Segment PropTexts Contents Wrote PropRead Readers PropAppend.
Open Scope Z_scope.
Open Scope list_scope.

(** ** Specification *)

(** The value [x] stands for the acronym with the number [a]. *)
Definition acronym_value (z : zlib) (a x : Z) : Prop := forall st, answers z st (gdxAcronymValue a) (ret_iv 1 [] [x]).
(** The numbers of acronyms. *)
Definition acronym_range (a : Z) : Prop := 1 <= a <= 17976931.
(** The [k]-th entry of the table of acronyms says that the acronym [a] of the file has the
    number [m] for the reader; a number that is not positive says nothing. *)
Definition entry (z : zlib) (st : gst) (k a m : Z) : Prop := exists b, answers z st (gdxAcronymGetMapping k) (ret_i 1 [a; m; b]).
(** It has been given the number [m]. *)
Definition mapped (z : zlib) (st : gst) (a m : Z) : Prop :=
  0 < m /\ exists k, entry z st k a m /\ forall j m', j < k -> ~ entry z st j a m'.
(** It is seen under the number [m]: the one it has been given, else its own. *)
Definition shows_as (z : zlib) (st : gst) (a m : Z) : Prop :=
  mapped z st a m \/ (m = a /\ forall k, ~ mapped z st a k).
(** The next number to be given is [k]. *)
Definition next_number (z : zlib) (st : gst) (k : Z) : Prop := answers z st (gdxAcronymNextNr (-1)) (ret k).

Definition edits_no_acronyms (cs : list call) : Prop := Forall (fun c => edits_acros c = false) cs.
Definition starts_no_numbering (cs : list call) : Prop := Forall (fun c => forall nv, c = gdxAcronymNextNr nv -> nv <= 0) cs.
Definition changes_no_number (cs : list call) : Prop := Forall (fun c => forall nv, c = gdxAcronymNextNr nv -> nv < 0) cs.

(** A raw read of the symbol [n] from its start to its last record. *)
Definition raw_reading (z : zlib) (st : gst) (n : Z) (rs : list resp) (st' : gst) : Prop :=
  exists s1, exec z (gdxDataReadRawStart n) st = Done (ret_i 1 [zlen rs], s1) /\ run z (repeat gdxDataReadRaw (length rs)) s1 = Done (rs, st').
(** In the record [r] that has been read, the [j]-th value stands for the acronym [m]. *)
Definition reads_acronym (z : zlib) (r : resp) (j : nat) (m : Z) : Prop :=
  exists af k vs y, r = ret_iv 1 (af :: k) vs /\ nth_error vs j = Some y /\ acronym_value z m y.

(** ** Values *)

Lemma value_of : forall z a x, acronym_value z a x -> acronym_range a -> x = fmul SV_ACR (fofZ a).
Proof.
  intros z a x V R. destruct (V (new_object [])) as (s & E). cbn [exec] in E. unfold ApiRead.acronym_value in E. destruct (Z.leb_spec a 0); [unfold acronym_range in R; lia|].
  injection E as E _. symmetry. exact E.
Qed.
Lemma value_is : forall z a, 0 < a -> acronym_value z a (fmul SV_ACR (fofZ a)).
Proof. intros z a P st. exists st. cbn [exec]. unfold ApiRead.acronym_value. destruct (Z.leb_spec a 0); [lia|reflexivity]. Qed.

Lemma below_not_above : forall x, fltb x SV_ACR = true -> fleb SV_ACR x = true -> False.
Proof.
  intros x L G. unfold fltb, fleb, SFltb, SFleb in *.
  change (of_bits SV_ACR) with (S754_finite false 8406091369059075 947) in *.
  destruct (of_bits x) as [s|s| |s m e]; try discriminate; try (destruct s; discriminate).
  destruct s; cbn [SFcompare] in *; [discriminate|].
  destruct (Z.compare_spec e 947); destruct (Z.compare_spec 947 e); try discriminate; try lia.
  change (Pos.compare_cont Eq) with Pos.compare in *. rewrite Pos.compare_antisym in L. destruct (Pos.compare 8406091369059075 m); discriminate.
Qed.

Theorem C07_values : forall z a, acronym_range a ->
  exists x, acronym_value z a x /\ forall st, answers z st (gdxAcronymIndex x) (ret a).
Proof.
  intros z a R. exists (fmul SV_ACR (fofZ a)). split; [apply value_is; unfold acronym_range in R; lia|]. intros st. exists st.
  cbn [exec]. unfold acronym_index, acro_of. pose proof (acr_ge a R) as G.
  destruct (fltb (fmul SV_ACR (fofZ a)) SV_ACR) eqn:L; [exfalso; eapply below_not_above; eassumption|].
  rewrite (acr_roundtrip a R). reflexivity.
Qed.

(** ** The table of acronyms *)

Lemma entry_iff : forall z st k a m, entry z st k a m <-> exists e, znth (d_acros (g_dic st)) (k - 1) = Some e /\ ac_map e = a /\ ac_rmap e = m.
Proof.
  intros z st k a m. split.
  - intros (b & s & E). cbn [exec] in E. unfold acronym_get_mapping in E. destruct (znth _ _) as [e|]; [|discriminate]. exists e. split; [reflexivity|].
    unfold ret_i in E. injection E as E1 E2 _ _. auto.
  - intros (e & E & <- & <-). exists (b2z (ac_auto e)), st. cbn [exec]. unfold acronym_get_mapping. rewrite E. reflexivity.
Qed.

(** The first entry for [org] has the number [m]. *)
Definition known (l : list acro) (org m : Z) : Prop := 0 < m /\ exists e, znth l (acro_entry org l) = Some e /\ ac_rmap e = m.

Lemma index_first : forall p l n i, n <= i < acro_index p l n \/ (n <= i /\ acro_index p l n < 0) -> 0 <= n -> forall e, znth l (i - n) = Some e -> p e = false.
Proof.
  induction l as [|a l IH]; intros n i I N e E; [unfold znth in E; destruct (i - n <? 0); [discriminate|]; destruct (Z.to_nat (i - n)); discriminate|].
  cbn [acro_index] in I. destruct (p a) eqn:P; [lia|].
  destruct (Z.eq_dec i n) as [->|NE]; [rewrite Z.sub_diag in E; cbn in E; congruence|].
  apply (IH (n + 1) i); [lia|lia|]. unfold znth in *. destruct (Z.ltb_spec (i - n) 0); [lia|]. destruct (Z.ltb_spec (i - (n + 1)) 0); [lia|].
  replace (Z.to_nat (i - n)) with (S (Z.to_nat (i - (n + 1)))) in E by lia. exact E.
Qed.
Lemma index_is : forall p l n i e, znth l (i - n) = Some e -> p e = true -> (forall j x, n <= j < i -> znth l (j - n) = Some x -> p x = false) -> acro_index p l n = i.
Proof.
  induction l as [|a l IH]; intros n i e E P F; [unfold znth in E; destruct (i - n <? 0); [discriminate|]; destruct (Z.to_nat (i - n)); discriminate|].
  pose proof (znth_Some _ _ _ E) as R. cbn [acro_index]. destruct (Z.eq_dec i n) as [->|NE].
  - rewrite Z.sub_diag in E. cbn in E. injection E as ->. rewrite P. reflexivity.
  - rewrite (F n a); [|lia|rewrite Z.sub_diag; reflexivity]. apply (IH (n + 1) i e).
    + unfold znth in *. destruct (Z.ltb_spec (i - n) 0); [lia|]. destruct (Z.ltb_spec (i - (n + 1)) 0); [lia|].
      replace (Z.to_nat (i - n)) with (S (Z.to_nat (i - (n + 1)))) in E by lia. exact E.
    + exact P.
    + intros j x J X. apply (F j x); [lia|]. unfold znth in *. destruct (Z.ltb_spec (j - n) 0); [lia|]. destruct (Z.ltb_spec (j - (n + 1)) 0); [lia|].
      replace (Z.to_nat (j - n)) with (S (Z.to_nat (j - (n + 1)))) by lia. exact X.
Qed.

Lemma known_iff : forall l org m, known l org m <-> 0 < m /\ exists k e, znth l k = Some e /\ ac_map e = org /\ ac_rmap e = m /\
  forall j x, j < k -> znth l j = Some x -> ac_map x <> org.
Proof.
  intros l org m. split; intros (P & H); (split; [exact P|]).
  - destruct H as (e & E & R). exists (acro_entry org l), e. split; [exact E|]. unfold acro_entry in *.
    destruct (acro_index_range (fun a => ac_map a =? org) l 0) as [X|(B & a & ZA & PA)]; [rewrite X in E; discriminate|].
    rewrite Z.sub_0_r, E in ZA. injection ZA as ->. apply Z.eqb_eq in PA. split; [exact PA|]. split; [exact R|].
    intros j x J X. pose proof (znth_Some _ _ _ X). apply Z.eqb_neq. apply (index_first (fun a => ac_map a =? org) l 0 j); [lia|lia|rewrite Z.sub_0_r; exact X].
  - destruct H as (k & e & E & M & R & F). exists e. split; [|exact R]. replace (acro_entry org l) with k; [exact E|]. symmetry. unfold acro_entry.
    apply (index_is _ l 0 k e); [rewrite Z.sub_0_r; exact E|apply Z.eqb_eq; exact M|]. intros j x J X. rewrite Z.sub_0_r in X. apply Z.eqb_neq. apply (F j x); [lia|exact X].
Qed.
Lemma mapped_known : forall z st a m, mapped z st a m <-> known (d_acros (g_dic st)) a m.
Proof.
  intros z st a m. rewrite known_iff. split; intros (P & H); (split; [exact P|]).
  - destruct H as (k & E & F). apply entry_iff in E. destruct E as (e & E & M & R). exists (k - 1), e. split; [exact E|]. split; [exact M|]. split; [exact R|].
    intros j x J X MX. apply (F (j + 1) (ac_rmap x)); [lia|]. apply entry_iff. exists x. replace (j + 1 - 1) with j by lia. auto.
  - destruct H as (k & e & E & M & R & F). exists (k + 1). split; [apply entry_iff; exists e; replace (k + 1 - 1) with k by lia; auto|].
    intros j m' J E'. apply entry_iff in E'. destruct E' as (x & X & MX & _). apply (F (j - 1) x); [lia|exact X|exact MX].
Qed.
Lemma known_number : forall l org m, known l org m -> acro_number l org = m.
Proof. intros l org m (P & e & E & R). unfold acro_number. rewrite E. destruct (Z.leb_spec (ac_rmap e) 0); [lia|exact R]. Qed.
Lemma number_shows : forall z st a, acronym_range a -> shows_as z st a (acro_number (d_acros (g_dic st)) a).
Proof.
  intros z st a R. unfold acro_number. destruct (znth (d_acros (g_dic st)) (acro_entry a (d_acros (g_dic st)))) as [e|] eqn:E.
  - destruct (Z.leb_spec (ac_rmap e) 0) as [L|L].
    + right. split; [reflexivity|]. intros k M. apply mapped_known in M. destruct M as (P & x & X & RX). rewrite E in X. injection X as ->. lia.
    + left. apply mapped_known. split; [exact L|]. eauto.
  - right. split; [reflexivity|]. intros k M. apply mapped_known in M. destruct M as (P & x & X & RX). congruence.
Qed.
Lemma shows_as_unique : forall z st a m m', shows_as z st a m -> shows_as z st a m' -> m = m'.
Proof.
  intros z st a m m' [A|(-> & A)] [B|(-> & B)]; [|exfalso; eapply B; exact A|exfalso; eapply A; exact B|reflexivity].
  apply mapped_known in A, B. apply known_number in A, B. congruence.
Qed.

(** Entries with a number stay. *)
Definition keeps (l l' : list acro) : Prop := forall org m, known l org m -> known l' org m.
Lemma keeps_refl : forall l, keeps l l.
Proof. intros l org m H. exact H. Qed.
Lemma keeps_trans : forall a b c, keeps a b -> keeps b c -> keeps a c.
Proof. intros a b c H K org m X. apply K, H, X. Qed.
Lemma keeps_snoc : forall l a, keeps l (l ++ [a]).
Proof.
  intros l a org m H. apply known_iff in H. apply known_iff. destruct H as (P & k & e & E & M & R & F). split; [exact P|]. exists k, e.
  pose proof (znth_Some _ _ _ E) as B. split; [rewrite znth_app_l by lia; exact E|]. split; [exact M|]. split; [exact R|].
  intros j x J X. destruct (Z.leb_spec 0 j) as [J0|J0]; [|apply znth_Some in X; lia]. rewrite znth_app_l in X by lia. exact (F j x J X).
Qed.
Lemma keeps_zset : forall l n a b, znth l n = Some a -> ac_map b = ac_map a -> ac_rmap a <= 0 -> keeps l (zset n b l).
Proof.
  intros l n a b E MB L org m H. apply known_iff in H. apply known_iff. destruct H as (P & k & e & EK & M & R & F). split; [exact P|]. exists k, e.
  assert (NK : n <> k) by (intros ->; rewrite E in EK; injection EK as ->; lia).
  split; [rewrite znth_zset_neq by lia; exact EK|]. split; [exact M|]. split; [exact R|].
  intros j x J X. destruct (Z.eq_dec n j) as [->|NJ].
  - rewrite znth_zset_eq in X by (apply znth_Some in E; lia). injection X as <-. rewrite MB. exact (F j a J E).
  - rewrite znth_zset_neq in X by lia. exact (F j x J X).
Qed.
Lemma keeps_numbered : forall nxt d d', numbered nxt d d' -> keeps (d_acros d) (d_acros d').
Proof. intros nxt d d' [org L P|n a E L P]; cbn; [apply keeps_snoc|]. eapply keeps_zset; [exact E|reflexivity|exact L]. Qed.
Lemma keeps_check : forall m l, keeps l (check_entry m l).
Proof. intros m l. unfold check_entry. destruct (_ <? 0); [apply keeps_snoc|apply keeps_refl]. Qed.

(** ** Reading values while numbers are given *)

(** The object later shows values at least as [a] does. *)
Record after (a b : gst) : Prop := mkAfter {
  af_rtab : e_rtab (g_env b) = e_rtab (g_env a);
  af_tab : e_tab (g_env b) = e_tab (g_env a);
  af_nan : e_acrnan (g_env b) = e_acrnan (g_env a);
  af_keeps : keeps (d_acros (g_dic a)) (d_acros (g_dic b));
  af_next : 0 < e_nextacr (g_env a) -> 0 < e_nextacr (g_env b);
  af_same : e_nextacr (g_env a) <= 0 -> e_nextacr (g_env b) <= 0 /\ d_acros (g_dic b) = d_acros (g_dic a)
}.
Lemma after_refl : forall a, after a a.
Proof. intros a. constructor; auto. apply keeps_refl. Qed.
Lemma after_trans : forall a b c, after a b -> after b c -> after a c.
Proof.
  intros a b c [A1 A2 A3 A4 A5 A6] [B1 B2 B3 B4 B5 B6]. constructor; try congruence; auto; [eapply keeps_trans; eassumption|].
  intros L. destruct (A6 L) as [L2 E]. destruct (B6 L2) as [L3 E2]. split; congruence || assumption.
Qed.
Lemma after_same : forall a b, g_env b = g_env a -> d_acros (g_dic b) = d_acros (g_dic a) -> after a b.
Proof. intros a b E D. constructor; rewrite ?E, ?D; auto. apply keeps_refl. Qed.

(** An acronym with a number. *)
Definition has_number (l : list acro) (v : sval) : Prop := forall d org, v = SNum d -> fleb SV_ACR d = true -> dblInfo d = DBL_FINITE ->
  d_round (fdiv d SV_ACR) = Some org -> exists m, known l org m.
Lemma has_number_keeps : forall l l' v, keeps l l' -> has_number l v -> has_number l' v.
Proof. intros l l' v K H d org A B C D. destruct (H d org A B C D) as (m & M). exists m. apply K. exact M. Qed.
Definition numbering_on (st : gst) : Prop := 0 < e_nextacr (g_env st) /\ e_acrnan (g_env st) = false.
Lemma numbering_after : forall a b, after a b -> numbering_on a -> numbering_on b.
Proof. intros a b [] [N1 N2]. split; [auto|congruence]. Qed.

Lemma read_value_after : forall v st, exists x st', read_value v st = Done (x, st') /\ but_acros st st' /\ after st st' /\
  (forall s, after st' s -> x = shown (g_env s) (d_acros (g_dic s)) v) /\ (numbering_on st -> has_number (d_acros (g_dic st')) v).
Proof.
  intros v st. destruct (Z.leb_spec (e_nextacr (g_env st)) 0) as [NX|NX].
  { exists (shown (g_env st) (d_acros (g_dic st)) v), st. split; [apply read_value_quiet; left; exact NX|]. split; [apply but_acros_refl|]. split; [apply after_refl|].
    split; [|intros [X _]; lia]. intros s A. destruct A as [A1 A2 A3 _ _ A6]. destruct (A6 NX) as [_ ->]. unfold shown, acro_shown. rewrite A1, A2, A3. reflexivity. }
  destruct v as [m|d].
  { exists (sval_value (e_rtab (g_env st)) (SMark m)), st. split; [reflexivity|]. split; [apply but_acros_refl|]. split; [apply after_refl|].
    split; [|intros _ d org X; discriminate X]. intros s A. cbn [shown]. rewrite (af_rtab _ _ A). reflexivity. }
  cbn [read_value]. destruct (fleb SV_ACR d) eqn:G.
  2: { exists d, st. split; [reflexivity|]. split; [apply but_acros_refl|]. split; [apply after_refl|]. split; [intros s A; cbn [shown]; rewrite G; reflexivity|]. intros _ d' org X G'. injection X as <-. congruence. }
  unfold acro_remap. destruct (dblInfo d) eqn:DI.
  1-3: eexists _, st; (split; [reflexivity|]); (split; [apply but_acros_refl|]); (split; [apply after_refl|]); (split; [intros s A; cbn [shown]; rewrite G; unfold acro_shown; rewrite DI, (af_tab _ _ A); reflexivity|]); intros _ d' org X _ DI'; injection X as <-; congruence.
  destruct (e_acrnan (g_env st)) eqn:AN.
  { eexists _, st. split; [reflexivity|]. split; [apply but_acros_refl|]. split; [apply after_refl|]. split; [|intros [_ X]; congruence]. intros s A. cbn [shown]. rewrite G. unfold acro_shown. rewrite DI, (af_nan _ _ A), AN, (af_tab _ _ A). reflexivity. }
  destruct (acr_round_total d G DI) as (org & E & _). rewrite E. cbv zeta.
  assert (FIN : forall st' m, after st st' -> known (d_acros (g_dic st')) org m -> (forall s, after st' s ->
    fmul SV_ACR (fofZ m) = shown (g_env s) (d_acros (g_dic s)) (SNum d)) /\ (numbering_on st -> has_number (d_acros (g_dic st')) (SNum d))).
  { intros st' m A K. split; [|intros _ d' org' X _ _ E'; injection X as <-; rewrite E in E'; injection E' as <-; exists m; exact K]. intros s B. cbn [shown]. rewrite G. unfold acro_shown. rewrite DI, (af_nan _ _ B), (af_nan _ _ A), AN, E.
    rewrite (known_number _ _ _ (af_keeps _ _ B _ _ K)). reflexivity. }
  assert (NEW : forall d', numbered (e_nextacr (g_env st)) (g_dic st) d' -> after st (set_g_dic d' (upd_env (set_e_nextacr (e_nextacr (g_env st) + 1)) st))).
  { intros d' N. constructor; try reflexivity; [eapply keeps_numbered; exact N|cbn; lia|intros; lia]. }
  destruct (Z.ltb_spec (acro_entry org (d_acros (g_dic st))) 0) as [L|L].
  - destruct (Z.leb_spec (e_nextacr (g_env st)) 0) as [|_]; [lia|].
    eexists _, _. split; [reflexivity|]. split; [apply but_acros_both|]. split; [exact (NEW _ (N_auto _ (g_dic st) org L NX))|].
    refine (FIN _ _ (NEW _ (N_auto _ (g_dic st) org L NX)) _). cbn [d_acros set_g_dic g_dic set_d_acros]. apply known_iff. split; [exact NX|].
    exists (zlen (d_acros (g_dic st))), (mkAcro [] [] org (e_nextacr (g_env st)) true). split; [rewrite znth_app_r by lia; rewrite Z.sub_diag; reflexivity|].
    split; [reflexivity|]. split; [reflexivity|]. intros j x J X. rewrite znth_app_l in X by lia. apply Z.eqb_neq.
    exact (acro_index_none _ _ 0 (Z.le_refl 0) L j x X).
  - unfold acro_entry in *. destruct (acro_index_range (fun a => ac_map a =? org) (d_acros (g_dic st)) 0) as [X|(R & a & ZA & PA)]; [lia|].
    rewrite Z.sub_0_r in ZA. rewrite ZA. apply Z.eqb_eq in PA. set (n := acro_index (fun a => ac_map a =? org) (d_acros (g_dic st)) 0) in *.
    assert (FI : forall j x, j < n -> znth (d_acros (g_dic st)) j = Some x -> ac_map x <> org).
    { intros j x J X. pose proof (znth_Some _ _ _ X). apply Z.eqb_neq. apply (index_first (fun a => ac_map a =? org) (d_acros (g_dic st)) 0 j); [fold n; lia|lia|rewrite Z.sub_0_r; exact X]. }
    destruct (Z.leb_spec (ac_rmap a) 0) as [RM|RM].
    + destruct (Z.leb_spec (e_nextacr (g_env st)) 0) as [|_]; [lia|].
      eexists _, _. split; [reflexivity|]. split; [apply but_acros_both|]. split; [exact (NEW _ (N_map _ (g_dic st) n a ZA RM NX))|].
      refine (FIN _ _ (NEW _ (N_map _ (g_dic st) n a ZA RM NX)) _). cbn [d_acros set_g_dic g_dic set_d_acros]. apply known_iff. split; [exact NX|].
      exists n, (set_ac_rmap (e_nextacr (g_env st)) (set_ac_auto true a)). split; [apply znth_zset_eq; apply znth_Some in ZA; exact ZA|].
      split; [exact PA|]. split; [reflexivity|]. intros j x J X. rewrite znth_zset_neq in X by lia. exact (FI j x J X).
    + eexists _, st. split; [reflexivity|]. split; [apply but_acros_refl|]. split; [apply after_refl|]. apply (FIN st); [apply after_refl|].
      apply known_iff. split; [exact RM|]. exists n, a. auto.
Qed.

Lemma read_values_after : forall vs st, exists xs st', read_values vs st = Done (xs, st') /\ but_acros st st' /\ after st st' /\
  (forall s, after st' s -> xs = List.map (shown (g_env s) (d_acros (g_dic s))) vs) /\ (numbering_on st -> Forall (has_number (d_acros (g_dic st'))) vs).
Proof.
  induction vs as [|v vs IH]; intros st; cbn [read_values].
  - exists [], st. split; [reflexivity|]. split; [apply but_acros_refl|]. split; [apply after_refl|]. split; [reflexivity|constructor].
  - destruct (read_value_after v st) as (x & s1 & -> & B1 & A1 & F1 & N1). cbn [obind]. destruct (IH s1) as (xs & s2 & -> & B2 & A2 & F2 & N2). cbn [obind].
    exists (x :: xs), s2. split; [reflexivity|]. split; [eapply but_acros_trans; eassumption|]. split; [eapply after_trans; eassumption|].
    split; [intros s A; cbn [List.map]; rewrite <- (F2 s A); f_equal; apply F1; eapply after_trans; eassumption|].
    intros N. constructor; [eapply has_number_keeps; [apply (af_keeps _ _ A2)|apply N1; exact N]|]. apply N2. eapply numbering_after; eassumption.
Qed.

Section Z.
Context (z : zlib).

Lemma source_but : forall F n todo a b, but_acros a b -> source z F n todo a -> source z F n todo b.
Proof.
  intros F n todo a b B S1. destruct S1 as [sy td st R D|sy st R D|st N0 U CN W1 W0 UC ST].
  - apply (Src_block z F n sy); [eapply reading_but; eassumption|exact D].
  - apply Src_empty; [eapply reading_but; eassumption|exact D].
  - destruct B as (l & x & ->).
    match goal with |- source z F n _ ?s => change (source z F n (List.map label_item (numbers (w_unr (g_wrk s) + 1) (d_uelcnt (g_dic s)))) s) end.
    apply Src_labels; assumption.
Qed.

Definition item_numbered (l : list acro) (it : item) : Prop := match snd it with Stored vs => Forall (has_number l) vs | _ => True end.
Lemma item_keeps : forall l l' it, keeps l l' -> item_numbered l it -> item_numbered l' it.
Proof.
  intros l l' [k [vs|sy|]] K H; try exact I. unfold item_numbered in *. cbn [snd] in *. eapply Forall_impl; [|exact H]. intros v. apply has_number_keeps. exact K.
Qed.
Lemma give_after : forall g st, sourced g -> exists xs st', give g st = Done (xs, st') /\ but_acros st st' /\ after st st' /\
  (forall s, after st' s -> xs = shows s g) /\ (numbering_on st -> forall k, item_numbered (d_acros (g_dic st')) (k, g)).
Proof.
  intros [vs|sy|] st S1; cbn [give].
  - destruct (read_values_after vs st) as (xs & st' & E & B & A & F & N). exists xs, st'. split; [exact E|]. split; [exact B|]. split; [exact A|]. split; [exact F|].
    intros X k. exact (N X).
  - cbn [sourced] in S1. destruct (default_total (e_rtab (g_env st)) sy S1) as [v E]. rewrite E. cbn [obind]. exists v, st. split; [reflexivity|].
    split; [apply but_acros_refl|]. split; [apply after_refl|]. split; [|intros _ k; exact I]. intros s A. unfold shows, shown_all. rewrite (af_rtab _ _ A), E. reflexivity.
  - exists [d_zero], st. split; [reflexivity|]. split; [apply but_acros_refl|]. split; [apply after_refl|]. split; [reflexivity|intros _ k; exact I].
Qed.

Lemma raw_calls_after : forall F n todo s, source z F n todo s -> g_mode s = fr_raw_data ->
  exists s1, run z (repeat gdxDataReadRaw (length todo)) s = Done (List.map (fun it => raw_resp (as_item s1 it)) todo, s1) /\ after s s1 /\
    (numbering_on s -> Forall (item_numbered (d_acros (g_dic s1))) todo).
Proof.
  intros F n todo. induction todo as [|[[af ks] g] todo IH]; intros s S1 M.
  - exists s. split; [reflexivity|]. split; [apply after_refl|constructor].
  - cbn [length repeat run exec]. unfold read_raw, checked. rewrite M. change (mode_in fr_raw_data [fr_raw_data]) with true. cbv iota.
    destruct (source_next _ _ _ _ _ _ _ _ S1) as (s1 & S2 & CK & _ & K & E). rewrite E.
    destruct (give_after g s1 (source_sourced _ _ _ _ _ _ S1)) as (xs & s2 & EG & B & A & FG & NG). rewrite EG. cbn [obind].
    assert (CK2 : cur_keys s2 = ks /\ g_mode s2 = fr_raw_data).
    { destruct B as (l & x & ->). split; [exact CK|]. change (g_mode s1 = fr_raw_data). rewrite (kp_mode _ _ K). exact M. }
    destruct CK2 as [CK2 M2]. destruct (IH s2 (source_but _ _ _ _ _ B S2) M2) as (s3 & E3 & A3 & N3). rewrite E3. cbn [obind].
    exists s3. split.
    + cbn [List.map]. change (raw_resp (as_item s3 (af, ks, g))) with (ret_iv 1 (af :: ks) (shows s3 g)). rewrite CK2, <- (FG s3 A3). reflexivity.
    + assert (A0 : after s s1).
      { apply after_same; [apply (kp_env _ _ K)|]. destruct (same_dic_parts _ _ (kp_dic _ _ K)) as (_ & _ & X & _). exact X. }
      split; [eapply after_trans; [exact A0|eapply after_trans; [exact A|exact A3]]|]. intros N. constructor.
      * eapply item_keeps; [apply (af_keeps _ _ A3)|]. apply NG. eapply numbering_after; eassumption.
      * apply N3. eapply numbering_after; [exact A|]. eapply numbering_after; eassumption.
Qed.

Lemma raw_back_after : forall st t rt n dim typ wt recs c s1, holds z st n dim typ wt recs -> tabs st t rt -> some_record dim recs ->
  exec z (gdxDataReadRawStart n) st = Done (ret_i 1 [c], s1) ->
  c = zlen recs /\ exists s2, run z (repeat gdxDataReadRaw (length recs)) s1 = Done (List.map raw_resp (as_read (sees s2 wt) None recs), s2) /\ after st s2 /\
    (numbering_on st -> forall r v, In r recs -> In v (snd r) -> has_number (d_acros (g_dic s2)) (classify (wt ++ tail_values) v)).
Proof.
  intros st t rt n dim typ wt recs c s1 (L & G & D & T & F & tab & k & nm & sy & Q & ZN & SD & ST & B) TB SR E.
  destruct (raw_start_answered _ _ _ _ _ _ _ _ Q E eq_refl) as (st1 & Q1 & M1 & E1 & EE & EA).
  set (items := List.map stored (with_first (repeat INDEX_INITIAL (Z.to_nat dim)) (List.map (store_rec wt) recs))).
  assert (HI : has_items z F tab k n (Z.to_nat dim) items).
  { right. exists nm, sy, (List.map (store_rec wt) recs). split; [exact ZN|]. split; [rewrite ST; unfold dt_alias, dt_equ in *; lia|]. split; [lia|]. split; [exact B|].
    split; [symmetry; exact SD|]. unfold items, items_of. rewrite SD.
    destruct (Nat.eqb_spec (Z.to_nat dim) 0) as [X|]; [|reflexivity]. destruct SR as [SR|SR]; [lia|]. destruct recs; [contradiction|]. reflexivity. }
  destruct (start_items z F tab k st1 n _ items fr_raw_data Q1 M1 HI ltac:(discriminate)) as (sa & EP & S1 & BG).
  cbn [exec] in E1. unfold read_raw_start, read_start in E1. rewrite EP in E1. cbn [obind] in E1. injection E1 as _ EC <-.
  destruct (raw_calls_after F n items sa S1 (bg_mode _ _ _ _ BG)) as (sb & EB & AB & NB).
  assert (LI : length items = length recs).
  { unfold items. rewrite map_length. generalize (repeat INDEX_INITIAL (Z.to_nat dim)). clear. induction recs as [|[a b] r IH]; intros p; cbn; [reflexivity|rewrite IH; reflexivity]. }
  split; [unfold zlen in *; rewrite LI in EC; congruence|]. exists sb. rewrite LI in EB. rewrite EB. split.
  - do 2 f_equal. rewrite <- (items_seen sb wt (Z.to_nat dim) recs None G), map_map. reflexivity.
  - assert (A0 : after st sa).
    { apply after_same; [rewrite (bg_env _ _ _ _ BG); exact EE|]. destruct (same_dic_parts _ _ (bg_dic _ _ _ _ BG)) as (_ & _ & X & _). rewrite X. exact EA. }
    split; [eapply after_trans; eassumption|]. intros N. specialize (NB (numbering_after _ _ A0 N)). clear - NB. unfold items in NB. revert NB.
    generalize (repeat INDEX_INITIAL (Z.to_nat dim)). induction recs as [|[k0 v0] recs IH]; intros p NB r v IR IV; [destruct IR|].
    cbn [List.map with_first store_rec fst snd] in NB. inversion NB as [|? ? N1 N2]; subst. destruct IR as [<-|IR]; [|eapply IH; eassumption].
    unfold item_numbered, stored in N1. cbn [snd fst] in *. rewrite Forall_forall in N1. apply N1. apply in_map. exact IV.
Qed.
End Z.

(** ** C40: the reader's numbers *)

Lemma acr_finite : forall a, acronym_range a -> dblInfo (fmul SV_ACR (fofZ a)) = DBL_FINITE.
Proof.
  intros a R. destruct (acr_value_B a R) as (b & E & F & _). revert E. generalize (fmul SV_ACR (fofZ a)). intros x E.
  unfold dblInfo. destruct (Z.eqb_spec (d_exp x) 2047) as [X|]; [|reflexivity]. exfalso. unfold of_bits in E. rewrite X in E. cbn [Z.eqb Pos.eqb] in E.
  destruct (d_mant x =? 0); destruct b; try discriminate.
Qed.
Lemma classify_acronym : forall a wt, acronym_range a -> ~ In (fmul SV_ACR (fofZ a)) wt -> classify (wt ++ tail_values) (fmul SV_ACR (fofZ a)) = SNum (fmul SV_ACR (fofZ a)).
Proof.
  intros a wt R N. pose proof (acr_ge a R) as G. pose proof (acr_finite a R) as FI. revert N G FI. generalize (fmul SV_ACR (fofZ a)). intros x N G FI.
  assert (NE : forall y, fleb SV_ACR y = false -> x <> y) by (intros y Y ->; congruence).
  unfold classify. rewrite place_index, place_none.
  - cbn [option_map]. rewrite (proj2 (Z.eqb_neq x 0)) by (apply NE; vm_compute; reflexivity). rewrite (proj2 (Z.eqb_neq x (2^63))) by (apply NE; vm_compute; reflexivity).
    cbn [orb]. rewrite FI. reflexivity.
  - intros I. apply in_app_or in I. destruct I as [I|I]; [exact (N I)|]. unfold tail_values in I. cbn [In] in I.
    repeat destruct I as [I|I]; try (symmetry in I; revert I; apply NE; vm_compute; reflexivity). exact I.
Qed.

Lemma sees_acronym : forall st wt a, acronym_range a -> ~ In (fmul SV_ACR (fofZ a)) wt -> e_acrnan (g_env st) = false ->
  sees st wt (fmul SV_ACR (fofZ a)) = fmul SV_ACR (fofZ (acro_number (d_acros (g_dic st)) a)).
Proof.
  intros st wt a R N AN. unfold sees. rewrite (classify_acronym a wt R N). cbn [shown]. rewrite (acr_ge a R). unfold acro_shown.
  rewrite (acr_finite a R), AN, (acr_roundtrip a R). reflexivity.
Qed.
Lemma acrnan_off : forall z st, answers z st gdxMapAcronymsToNaN (ret 0) -> e_acrnan (g_env st) = false.
Proof. intros z st (s & E). cbn [exec] in E. unfold map_acronyms_to_nan in E. injection E as E _. destruct (e_acrnan (g_env st)); [discriminate|reflexivity]. Qed.
Lemma next_number_is : forall z st k, next_number z st k -> e_nextacr (g_env st) = k.
Proof. intros z st k (s & E). cbn [exec] in E. unfold acronym_next_nr in E. injection E as E _. exact E. Qed.
Lemma next_number_now : forall z st, next_number z st (e_nextacr (g_env st)).
Proof. intros z st. exists st. reflexivity. Qed.
Lemma number_pos : forall l a, acronym_range a -> 0 < acro_number l a.
Proof. intros l a R. unfold acro_number, acronym_range in *. destruct (znth _ _) as [e|]; [|lia]. destruct (Z.leb_spec (ac_rmap e) 0); lia. Qed.

Lemma known_dec : forall l a, known l a (acro_number l a) \/ forall m, ~ known l a m.
Proof.
  intros l a. unfold known, acro_number. destruct (znth l (acro_entry a l)) as [e|] eqn:E.
  - destruct (Z.leb_spec (ac_rmap e) 0) as [L|L]; [right|left; eauto]. intros m (P & x & X & R). injection X as ->. lia.
  - right. intros m (P & x & X & R). discriminate.
Qed.

(** A value that has been written for the acronym [a] is read as a value for an acronym
    [m], and after the read the reader's table says [m] for [a].  If new acronyms are given
    numbers, [a] has one now. *)
Theorem C40_translation : forall z st2 n dim typ wt recs rcs rrs st3 rs st4 i k vs j x a r,
  wrote z st2 n dim typ wt recs -> some_record dim recs -> then_calls z rcs rrs st2 st3 -> raw_reading z st3 n rs st4 ->
  answers z st3 gdxMapAcronymsToNaN (ret 0) ->
  nth_error recs i = Some (k, vs) -> nth_error vs j = Some x -> acronym_value z a x -> acronym_range a -> ~ In x wt -> nth_error rs i = Some r ->
  exists m, reads_acronym z r j m /\ shows_as z st4 a m /\ (forall nx, next_number z st3 nx -> 0 < nx -> mapped z st4 a m).
Proof.
  intros z st2 n dim typ wt recs rcs rrs st3 rs st4 i k vs j x a r W SR TC (s1 & E & R) AN NI NJ V AR NW NR.
  destruct (wrote_holds _ _ _ _ _ _ _ W) as (H & T & _ & _). destruct (tabs_then _ _ _ _ _ _ _ TC T) as (t & T3). apply (holds_then _ _ _ _ _ _ _ _ _ _ TC) in H.
  destruct (raw_back_after _ _ _ _ _ _ _ _ _ _ _ H T3 SR E) as (EC & s2 & R2 & AF & NM).
  assert (LL : length rs = length recs) by (unfold zlen in EC; lia). rewrite LL, R2 in R. injection R as <- <-.
  pose proof (value_of _ _ _ V AR) as ->. exists (acro_number (d_acros (g_dic s2)) a).
  rewrite (map_nth_error raw_resp _ _ (as_read_nth _ _ None _ _ _ NI)) in NR. injection NR as <-.
  split; [|split; [apply number_shows; exact AR|]].
  - eexists _, k, _, _. split; [reflexivity|]. split; [apply map_nth_error; exact NJ|]. rewrite sees_acronym; [|exact AR|exact NW|].
    + apply value_is. apply number_pos. exact AR.
    + rewrite (af_nan _ _ AF). eapply acrnan_off. exact AN.
  - intros nx NX P. apply mapped_known. apply next_number_is in NX. destruct (NM ltac:(split; [lia|eapply acrnan_off; exact AN]) (k, vs) (fmul SV_ACR (fofZ a)) (nth_error_In _ _ NI) (nth_error_In _ _ NJ) (fmul SV_ACR (fofZ a)) a) as (m & M).
    + apply classify_acronym; assumption.
    + apply acr_ge. exact AR.
    + apply acr_finite. exact AR.
    + apply acr_roundtrip. exact AR.
    + rewrite (known_number _ _ _ M). exact M.
Qed.

(** A number that has been given stays, whatever is done then, but for gdxAcronymSetInfo. *)
Lemma keeps_calm : forall c d d', (forall k nm t ix, c <> gdxAcronymSetInfo k nm t ix) -> datom c d d' -> keeps (d_acros d) (d_acros d').
Proof.
  intros c d d' NC A. destruct A; try apply keeps_refl; cbn [d_acros set_d_names set_d_uels set_d_usr set_d_status set_d_texts set_d_acros set_d_filts set_d_dstrs].
  1-4: unfold upd_sym; destruct (znth _ _); apply keeps_refl.
  - unfold uel_add. destruct (sl_add _ _ _ _). apply keeps_refl.
  - unfold map_status. destruct (d_status d); apply keeps_refl.
  - apply keeps_check.
  - apply keeps_snoc.
  - apply keeps_snoc.
  - eapply keeps_zset; [eassumption|reflexivity|assumption].
  - exfalso. eapply NC. eassumption.
  - exfalso. eapply NC. eassumption.
Qed.
Definition sets_no_acronym (cs : list call) : Prop := Forall (fun c => forall k nm t ix, c <> gdxAcronymSetInfo k nm t ix) cs.
Theorem C40_numbers_stay : forall z cs a b x m, during z cs a b -> sets_no_acronym cs -> mapped z a x m -> mapped z b x m.
Proof.
  intros z cs a b x m D N M. apply mapped_known in M. apply mapped_known. unfold sets_no_acronym in N. rewrite Forall_forall in N.
  revert M. apply (during_dic z (fun d => known (d_acros d) x m) cs a b); [|exact D]. intros c d d' IN A K. exact (keeps_calm c d d' (N c IN) A x m K).
Qed.

(** Different acronyms have different numbers, if numbers are given by the library only. *)
Definition none_given (st : gst) : Prop := e_nextacr (g_env st) <= 0 /\ Forall (fun e => ac_rmap e <= 0) (d_acros (g_dic st)).
Lemma none_given_step : forall c a b, edits_acros c = false -> (forall nv, c = gdxAcronymNextNr nv -> nv <= 0) -> none_given a -> atom c a b -> none_given b.
Proof.
  intros c a b EC NC [N1 N2] A. destruct A; try (split; assumption).
  - split; [|exact N2]. cbn. destruct H0 as [(nv & E & P & ->)|E]; [specialize (NC nv E); lia|rewrite E; exact N1].
  - exfalso. destruct H; lia.
  - split; [exact N1|]. cbn. destruct H as [E|[E|(m & E)]]; [rewrite E; exact N2|congruence|]. rewrite E. unfold check_entry. destruct (_ <? 0); [|exact N2].
    apply Forall_app. split; [exact N2|]. repeat constructor. cbn. lia.
  - unfold set_error. destruct (n =? 0); split; assumption.
Qed.
Definition one_each (k : Z) (st : gst) : Prop := 0 < e_nextacr (g_env st) /\
  (forall i e, znth (d_acros (g_dic st)) i = Some e -> 0 < ac_rmap e -> k <= ac_rmap e < e_nextacr (g_env st)) /\
  (forall i j e f, znth (d_acros (g_dic st)) i = Some e -> znth (d_acros (g_dic st)) j = Some f -> 0 < ac_rmap e -> ac_rmap e = ac_rmap f -> i = j) /\ k <= e_nextacr (g_env st).
Lemma one_each_same : forall k a b, g_env b = g_env a -> d_acros (g_dic b) = d_acros (g_dic a) -> one_each k a -> one_each k b.
Proof. intros k a b E D H. unfold one_each. rewrite E, D. exact H. Qed.
Lemma one_each_snoc : forall k st st' e, e_nextacr (g_env st') = e_nextacr (g_env st) -> d_acros (g_dic st') = d_acros (g_dic st) ++ [e] -> ac_rmap e <= 0 -> one_each k st -> one_each k st'.
Proof.
  intros k st st' e E D L (P & H1 & H2 & H3). unfold one_each. rewrite E, D. split; [exact P|]. split; [|split; [|exact H3]].
  - intros i x X PX. destruct (Z.ltb_spec i (zlen (d_acros (g_dic st)))); [rewrite znth_app_l in X by lia; eapply H1; eassumption|].
    rewrite znth_app_r in X by lia. apply znth_In in X. destruct X as [<-|[]]. lia.
  - intros i j x y X Y PX XY. destruct (Z.ltb_spec i (zlen (d_acros (g_dic st)))); [|rewrite znth_app_r in X by lia; apply znth_In in X; destruct X as [<-|[]]; lia].
    destruct (Z.ltb_spec j (zlen (d_acros (g_dic st)))); [|rewrite znth_app_r in Y by lia; apply znth_In in Y; destruct Y as [<-|[]]; lia].
    rewrite znth_app_l in X, Y by lia. eapply H2; eassumption.
Qed.
Lemma one_each_step : forall k c a b, edits_acros c = false -> (forall nv, c = gdxAcronymNextNr nv -> nv < 0) -> one_each k a -> atom c a b -> one_each k b.
Proof.
  intros k c a b EC NC H A. destruct A; try exact H.
  - destruct H1 as [(nv & E & P & _)|E]; [specialize (NC nv E); lia|]. destruct H as (P & X1 & X2 & X3). unfold one_each. cbn in *. rewrite E. auto.
  - destruct H as (P & X1 & X2 & X3). unfold one_each. cbn. destruct H0 as [org L _|n e E L _]; cbn [d_acros set_d_acros].
    + split; [lia|]. split; [|split; [|lia]].
      * intros i x X PX. destruct (Z.ltb_spec i (zlen (d_acros (g_dic st)))); [rewrite znth_app_l in X by lia; specialize (X1 i x X PX); lia|].
        rewrite znth_app_r in X by lia. apply znth_In in X. destruct X as [<-|[]]. cbn. lia.
      * intros i j x y X Y PX XY.
        destruct (Z.ltb_spec i (zlen (d_acros (g_dic st)))) as [I|I]; destruct (Z.ltb_spec j (zlen (d_acros (g_dic st)))) as [J|J].
        -- rewrite znth_app_l in X, Y by lia. eapply X2; eassumption.
        -- rewrite znth_app_l in X by lia. rewrite znth_app_r in Y by lia. apply znth_In in Y. destruct Y as [<-|[]]. cbn in XY. specialize (X1 i x X PX). lia.
        -- rewrite znth_app_l in Y by lia. rewrite znth_app_r in X by lia. apply znth_In in X. destruct X as [<-|[]]. cbn in XY, PX. specialize (X1 j y Y ltac:(lia)). lia.
        -- apply znth_Some in X, Y. rewrite zlen_app in X, Y. change (zlen [_]) with 1 in X, Y. lia.
    + split; [lia|]. pose proof (znth_Some _ _ _ E) as RG. split; [|split; [|lia]].
      * intros i x X PX. destruct (Z.eq_dec n i) as [->|NE]; [rewrite znth_zset_eq in X by lia; injection X as <-; cbn; lia|].
        rewrite znth_zset_neq in X by lia. specialize (X1 i x X PX). lia.
      * intros i j x y X Y PX XY. destruct (Z.eq_dec i n) as [->|NI]; destruct (Z.eq_dec j n) as [->|NJ]; try reflexivity.
        -- rewrite znth_zset_eq in X by lia. rewrite znth_zset_neq in Y by lia. injection X as <-. cbn in *. specialize (X1 j y Y ltac:(lia)). lia.
        -- rewrite znth_zset_eq in Y by lia. rewrite znth_zset_neq in X by lia. injection Y as <-. cbn in *. specialize (X1 i x X PX). lia.
        -- rewrite znth_zset_neq in X, Y by lia. eapply X2; eassumption.
  - destruct H0 as [E|[E|(m & E)]]; [apply (one_each_same k st); [reflexivity|exact E|exact H]|congruence|]. unfold check_entry in E. destruct (_ <? 0).
    + eapply one_each_snoc; [| |shelve|exact H]; [reflexivity|exact E].
    + apply (one_each_same k st); [reflexivity|exact E|exact H].
  - unfold set_error. destruct (n =? 0); exact H.
  Unshelve. cbn. lia.
Qed.

(** The reader opens a file, and then, before or after other calls, has new acronyms given
    numbers from [k] on. *)
Definition numbers_from (z : zlib) (k : Z) (st : gst) : Prop :=
  exists st2 cs1 sa r sb cs2, opened_to_read z st2 /\ (exists nx, nx <= 0 /\ next_number z st2 nx) /\
    during z cs1 st2 sa /\ edits_no_acronyms cs1 /\ starts_no_numbering cs1 /\
    exec z (gdxAcronymNextNr k) sa = Done (r, sb) /\ 0 < k /\
    during z cs2 sb st /\ edits_no_acronyms cs2 /\ changes_no_number cs2.

(** No acronym has a number when the file has been opened. *)
Local Ltac sbf H := first [apply s_parse_sbf in H | apply s_getpos_sbf in H | apply s_setpos_sbf in H | apply s_setcomp_sbf in H];
  let f := fresh "f" in destruct H as (f & ->).
Local Ltac step_end :=
  match goal with
  | |- good_end _ (@obind (_ * gst) _ (s_parse _ _ _) _) => apply bind_end; let H := fresh in intros ? ? H; sbf H
  | |- good_end _ (@obind (_ * gst) _ (s_getpos _ _) _) => apply bind_end; let H := fresh in intros ? ? H; sbf H
  | |- good_end _ (@obind gst _ _ _) => apply bindg_end; let H := fresh in intros ? H; sbf H
  | |- good_end _ (check_or _ _ _ _) => apply check_or_end; intros _
  end; cbv beta iota zeta.
Lemma prepeat_all : forall {A} (P : A -> Prop) (p : parser A), (forall v a v', p v = Some (a, v') -> P a) ->
  forall n v l v', prepeat n p v = Some (l, v') -> Forall P l.
Proof.
  intros A P p H. induction n as [|n IH]; intros v l v' E; cbn [prepeat] in E; unfold pret, pbind in E; [injection E as <- _; constructor|].
  destruct (p v) as [[a v1]|] eqn:E1; [|discriminate]. destruct (prepeat n p v1) as [[l1 v2]|] eqn:E2; [|discriminate]. injection E as <- _.
  constructor; [eapply H; exact E1|eapply IH; exact E2].
Qed.
Lemma s_parse_all : forall {A} z (P : A -> Prop) (p : parser A) st a st', (forall v a v', p v = Some (a, v') -> P a) -> s_parse z p st = Done (a, st') -> P a.
Proof.
  intros A z P p st a st' H E. unfold s_parse in E. destruct (f_strm _); [|discriminate]. cbv zeta in E. destruct (as_view _ _); [|discriminate].
  destruct (p _) as [[x y]|] eqn:PV; [|discriminate]. injection E as <- _. eapply H. exact PV.
Qed.
Lemma open_acros_rmaps : forall z Q m st k, Forall (fun e => ac_rmap e <= 0) (d_acros (g_dic st)) ->
  (forall st', Forall (fun e => ac_rmap e <= 0) (d_acros (g_dic st')) -> good_end Q (k st')) -> good_end Q (open_acros z m st k).
Proof.
  intros z Q m st k F H. unfold open_acros. cbv zeta. destruct (7 <=? _); [|apply H; exact F].
  step_end. step_end. step_end. step_end. apply bind_end. intros l s E. assert (FL : Forall (fun e => ac_rmap e <= 0) l).
  { revert E. apply s_parse_all. intros v l0 v1 PV. unfold p_counted, pbind in PV. destruct (p_int _ v) as [[n v2]|]; [|discriminate].
    revert PV. apply prepeat_all. intros w e w' PW. unfold p_acro, pbind, pret in PW. destruct (p_sstr w) as [[? w1]|]; [|discriminate].
    destruct (p_sstr w1) as [[? w2]|]; [|discriminate]. destruct (p_int _ w2) as [[? w3]|]; [|discriminate]. injection PW as <- _. cbn. lia. }
  sbf E. cbv beta iota zeta. step_end. step_end. apply H. exact FL.
Qed.
Lemma open_symbs_acros : forall z Q m st k, (forall st', d_acros (g_dic st') = [] -> good_end Q (k st')) -> good_end Q (open_symbs z m st k).
Proof.
  intros z Q m st k H. unfold open_symbs. cbv zeta. repeat step_end. all: destruct a0; repeat step_end; apply H; reflexivity.
Qed.
Lemma opened_rmaps : forall z st2, opened_to_read z st2 -> Forall (fun e => ac_rmap e <= 0) (d_acros (g_dic st2)).
Proof.
  intros z st (st0 & name & rm & r & H & RC). cbn [exec] in H. unfold open_read in H.
  destruct (mode_in (g_mode st0) [f_not_open]); cbn [negb] in H; [|injection H as <- <-; discriminate]. cbv zeta in H.
  destruct name as [|c name]; [injection H as <- <-; discriminate|].
  destruct (disk_get _ _) as [F|]; [|injection H as <- <-; discriminate].
  match type of H with open_header z ?s0 _ = _ => generalize dependent s0 end.
  intros s0 H. revert H. revert r st RC.
  match goal with |- forall r st, r_code r = 1 -> ?x = Done (r, st) -> _ => enough (GE : good_end (fun st => Forall (fun e => ac_rmap e <= 0) (d_acros (g_dic st))) x)
    by (intros r st RC H; exact (GE r st H RC)) end.
  apply open_header_end. intros s1 _. step_end. apply open_symbs_acros. intros s2 A2. unfold open_uels. cbv zeta. repeat step_end.
  match goal with |- good_end ?Q (if _ then open_texts z _ _ ?k else _) => assert (RS : forall s, d_acros (g_dic s) = [] -> good_end Q (k s)) end.
  { intros s4 A4. apply open_acros_rmaps; [rewrite A4; constructor|]. intros s5 A5. unfold open_doms. cbv zeta. destruct (_ && _); repeat step_end;
    (intros r st E RC; injection E as <- <-; exact A5). }
  destruct (Z.rem rm 2 =? 0); [|apply RS; exact A2].
  unfold open_texts. cbv zeta. repeat step_end. apply bindp_end. intros [texts mt] _. cbv beta iota zeta. repeat step_end. apply RS. exact A2.
Qed.

Lemma none_given_during : forall z cs a b, edits_no_acronyms cs -> starts_no_numbering cs -> during z cs a b -> none_given a -> none_given b.
Proof.
  intros z cs a b E N D. unfold edits_no_acronyms, starts_no_numbering in *. rewrite Forall_forall in E, N.
  apply (during_state z none_given cs); [|intros ? X; exact X|exact D]. intros c x y I P A. eapply none_given_step; [apply E; exact I|apply N; exact I|exact P|exact A].
Qed.
Lemma one_each_during : forall z k cs a b, edits_no_acronyms cs -> changes_no_number cs -> during z cs a b -> one_each k a -> one_each k b.
Proof.
  intros z k cs a b E N D. unfold edits_no_acronyms, changes_no_number in *. rewrite Forall_forall in E, N.
  apply (during_state z (one_each k) cs); [|intros ? X; exact X|exact D]. intros c x y I P A. eapply one_each_step; [apply E; exact I|apply N; exact I|exact P|exact A].
Qed.

Theorem C40_one_to_one : forall z k st a b m, numbers_from z k st -> mapped z st a m -> mapped z st b m -> a = b /\ k <= m.
Proof.
  intros z k st a b m (st2 & cs1 & sa & r & sb & cs2 & OP & (nx & NX & N2) & D1 & E1 & S1 & EX & KP & D2 & E2 & C2) MA MB.
  apply next_number_is in N2. assert (NG : none_given sa).
  { eapply none_given_during; [exact E1|exact S1|exact D1|]. split; [lia|]. eapply opened_rmaps. exact OP. }
  assert (OE : one_each k sb).
  { cbn [exec] in EX. unfold acronym_next_nr in EX. destruct (Z.leb_spec 0 k); [|lia]. injection EX as _ <-. destruct NG as [_ NG]. unfold one_each. cbn.
    rewrite Forall_forall in NG. split; [lia|]. split; [intros i e Z P; specialize (NG e (znth_In _ _ _ Z)); cbn in NG; lia|]. split; [|lia].
    intros i j e f Z _ P. specialize (NG e (znth_In _ _ _ Z)). cbn in NG. lia. }
  apply (one_each_during _ _ _ _ _ E2 C2 D2) in OE. destruct OE as (_ & L & U & _).
  apply mapped_known in MA, MB. apply known_iff in MA, MB. destruct MA as (P & i & e & Ei & Ma & Ra & _), MB as (_ & j & f & Ej & Mb & Rb & _).
  assert (i = j) as <- by (eapply U; [exact Ei|exact Ej|lia|lia]). replace f with e in * by congruence. split; [congruence|]. specialize (L i e Ei). lia.
Qed.

(** ** C07: the values that are read *)

(** Without numbers of the reader's own, the acronym that is read is the one that was written. *)
Definition no_own_numbers (z : zlib) (st : gst) : Prop :=
  exists st2 cs, opened_to_read z st2 /\ (exists nx, nx <= 0 /\ next_number z st2 nx) /\ during z cs st2 st /\ edits_no_acronyms cs /\ starts_no_numbering cs.
Lemma no_own_none : forall z st, no_own_numbers z st -> none_given st.
Proof.
  intros z st (st2 & cs & OP & (nx & NX & N2) & D & E & S1). eapply none_given_during; [exact E|exact S1|exact D|]. apply next_number_is in N2.
  split; [lia|]. eapply opened_rmaps. exact OP.
Qed.
Lemma none_given_mapped : forall z st a m, none_given st -> ~ mapped z st a m.
Proof.
  intros z st a m [_ N] M. apply mapped_known in M. destruct M as (P & e & E & R). rewrite Forall_forall in N. specialize (N e (znth_In _ _ _ E)). cbn in N. lia.
Qed.
Theorem C07_own_numbers : forall z st a m, no_own_numbers z st -> shows_as z st a m -> m = a.
Proof. intros z st a m N [M|[M _]]; [|exact M]. exfalso. exact (none_given_mapped z st a m (no_own_none z st N) M). Qed.

Theorem C07_acronyms_survive : forall z st2 n dim typ wt recs rcs rrs st3 rs st4 i k vs j x a r,
  wrote z st2 n dim typ wt recs -> some_record dim recs ->
  (exists nx, nx <= 0 /\ next_number z st2 nx) -> then_calls z rcs rrs st2 st3 -> edits_no_acronyms rcs -> starts_no_numbering rcs ->
  raw_reading z st3 n rs st4 -> answers z st3 gdxMapAcronymsToNaN (ret 0) ->
  nth_error recs i = Some (k, vs) -> nth_error vs j = Some x -> acronym_value z a x -> acronym_range a -> ~ In x wt -> nth_error rs i = Some r ->
  reads_acronym z r j a.
Proof.
  intros z st2 n dim typ wt recs rcs rrs st3 rs st4 i k vs j x a r W SR NX TC ED SN RR AN NI NJ V AR NW NR.
  destruct (C40_translation _ _ _ _ _ _ _ _ _ _ _ _ _ _ _ _ _ _ _ W SR TC RR AN NI NJ V AR NW NR) as (m & RA & SH & _).
  replace a with m; [exact RA|]. revert SH. apply (C07_own_numbers z). destruct (wrote_reopened _ _ _ _ _ _ _ W) as (name & prod & compr & cs & ws & st & RO).
  destruct RO as (_ & _ & r0 & st1 & F & rd & rm & _ & _ & _ & _ & _ & _ & _ & OR).
  exists st2, (rcs ++ gdxDataReadRawStart n :: repeat gdxDataReadRaw (length rs)). split; [exists rd, name, rm, (ret_i 1 [0]); split; [exact OR|reflexivity]|]. split; [exact NX|].
  split; [|split].
  - eapply during_trans; [eapply then_during; exact TC|]. destruct RR as (s1 & E & R).
    split; [|split].
    + cbn [forallb]. apply forallb_forall. intros c IN. apply repeat_spec in IN. subst c. reflexivity.
    + constructor; [exact Logic.I|]. apply Forall_forall. intros c IN. apply repeat_spec in IN. subst c. exact Logic.I.
    + exists (ret_i 1 [zlen rs] :: rs). cbn [run]. rewrite E. cbn [obind]. rewrite R. reflexivity.
  - apply Forall_app. split; [exact ED|]. constructor; [reflexivity|]. apply Forall_forall. intros c IN. apply repeat_spec in IN. subst c. reflexivity.
  - apply Forall_app. split; [exact SN|]. constructor; [discriminate|]. apply Forall_forall. intros c IN. apply repeat_spec in IN. subst c. discriminate.
Qed.

(** ** The hypotheses are met *)
Definition acr_7 : Z := Eval vm_compute in fmul SV_ACR (fofZ 7).
Definition acr_9 : Z := Eval vm_compute in fmul SV_ACR (fofZ 9).
Definition aq_pre : list call := [gdxUELRegisterRawStart; gdxUELRegisterRaw (s2z "a"); gdxUELRegisterRaw (s2z "B"); gdxUELRegisterRaw (s2z "c"); gdxUELRegisterDone;
  gdxAcronymAdd (s2z "monday") (s2z "first day") 7; gdxAcronymAdd (s2z "sunday") [] 8].
Definition aq_start : call := gdxDataWriteRawStart (s2z "p") (s2z "a parameter") 1 dt_par 0.
Definition aq_body : list call := [gdxDataWriteRaw [1] [acr_9]; gdxDataWriteRaw [2] [dbl_2_5]; gdxDataWriteRaw [3] [acr_7]].
Definition aq_seg : list call := aq_start :: aq_body ++ [gdxDataWriteDone].
Definition aq_records : list (list Z * list Z) := [([1], [acr_9]); ([2], [dbl_2_5]); ([3], [acr_7])].
Definition aq_0 : gst := state_of (exec rle_zlib (gdxOpenWriteEx (s2z "v.gdx") (s2z "test") 0) (new_object [])).
Definition aq_sp : gst := state_of (run rle_zlib aq_pre aq_0).
Definition aq_sq : gst := state_of (run rle_zlib aq_seg aq_sp).
Definition aq_closed : gst := state_of (exec rle_zlib gdxClose aq_sq).
Definition aq_read : gst := state_of (exec rle_zlib (gdxOpenReadEx (s2z "v.gdx") 0) aq_closed).
Definition aq_rseg : list resp := answer_of (run rle_zlib aq_seg aq_sp).
Definition aq_rpre : list resp := answer_of (run rle_zlib aq_pre aq_0).
Definition aq_file : list Z := match disk_get (e_disk (g_env aq_closed)) (s2z "v.gdx") with Some F => F | None => [] end.
Lemma aq_parts : in_parts rle_zlib (s2z "v.gdx") (s2z "test") 0 aq_pre aq_sp aq_seg aq_rseg aq_sq [] aq_sq aq_read.
Proof.
  exists aq_rpre, []. split.
  { apply writes_made. exists (new_object []), aq_0, (ret_i 1 [0]). split; [vm_compute; reflexivity|]. split; [reflexivity|]. split; [apply str_okb_ok; vm_compute; reflexivity|].
    split; [apply calls_okb_ok; vm_compute; reflexivity|]. vm_compute. reflexivity. }
  split; [vm_compute; reflexivity|]. split; [vm_compute; reflexivity|]. split.
  { apply writes_made. exists (new_object []), aq_0, (ret_i 1 [0]). split; [vm_compute; reflexivity|]. split; [reflexivity|]. split; [apply str_okb_ok; vm_compute; reflexivity|].
    split; [apply calls_okb_ok; vm_compute; reflexivity|]. vm_compute. reflexivity. }
  split; [vm_compute; reflexivity|]. exists (ret 0), aq_closed, aq_file, aq_closed, 0.
  split; [vm_compute; reflexivity|]. split; [vm_compute; reflexivity|]. split; [apply counters_fit_test; vm_compute; reflexivity|].
  split; [vm_compute; reflexivity|]. split; [split; vm_compute; reflexivity|]. split; [vm_compute; reflexivity|]. split; [reflexivity|].
  vm_compute. reflexivity.
Qed.
Lemma aq_wrote : wrote rle_zlib aq_read 1 1 dt_par standard_values aq_records.
Proof.
  apply wrote_now. left.
  exists (s2z "v.gdx"), (s2z "test"), 0, aq_pre, aq_sp, aq_start, (s2z "p"), (s2z "a parameter"), 0, [(0, INT_MAX)], aq_body, (ret 1),
    [ret 1; ret 1; ret 1], (ret 1), aq_sq, [], aq_sq.
  split; [exact aq_parts|]. split; [exact (RS_plain (s2z "p") (s2z "a parameter") 1 dt_par 0)|]. split; [reflexivity|]. split; [reflexivity|].
  split; [repeat constructor|]. split; [exists 3; ans|]. split; [ans|]. split; [reflexivity|]. split; [reflexivity|]. repeat constructor.
Qed.
Lemma acr_7_is : acronym_value rle_zlib 7 acr_7.
Proof. change acr_7 with (fmul SV_ACR (fofZ 7)). apply value_is. lia. Qed.
Lemma acr_9_is : acronym_value rle_zlib 9 acr_9.
Proof. change acr_9 with (fmul SV_ACR (fofZ 9)). apply value_is. lia. Qed.

(** Read as it is. *)
Definition aq_r1 : gst := state_of (exec rle_zlib (gdxDataReadRawStart 1) aq_read).
Definition aq_rs : list resp := answer_of (run rle_zlib (repeat gdxDataReadRaw 3) aq_r1).
Definition aq_r2 : gst := state_of (run rle_zlib (repeat gdxDataReadRaw 3) aq_r1).
Lemma aq_reading : raw_reading rle_zlib aq_read 1 aq_rs aq_r2.
Proof. exists aq_r1. split; vm_compute; reflexivity. Qed.
Lemma aq_nr : exists nx, nx <= 0 /\ next_number rle_zlib aq_read nx.
Proof. exists 0. split; [lia|]. ans. Qed.
Lemma aq_nan : answers rle_zlib aq_read gdxMapAcronymsToNaN (ret 0).
Proof. ans. Qed.
Lemma aq_none : then_calls rle_zlib [] [] aq_read aq_read.
Proof. split; [constructor|reflexivity]. Qed.
Example C07_case : exists r, nth_error aq_rs 0 = Some r /\ reads_acronym rle_zlib r 0 9.
Proof.
  assert (X : exists r, nth_error aq_rs 0 = Some r) by (eexists; vm_compute; reflexivity). destruct X as (r & X). exists r. split; [exact X|].
  refine (C07_acronyms_survive _ _ _ _ _ _ aq_records _ _ _ _ _ 0%nat [1] [acr_9] 0%nat acr_9 9 r aq_wrote (or_introl _) aq_nr aq_none _ _ aq_reading aq_nan eq_refl eq_refl acr_9_is _ _ X).
  - discriminate.
  - constructor.
  - constructor.
  - unfold acronym_range. lia.
  - intros H. repeat (destruct H as [H|H]; [discriminate|]). destruct H.
Qed.

(** Read with numbers from 100 on: the first acronym of the data gets 100. *)
Definition aq_n : gst := state_of (exec rle_zlib (gdxAcronymNextNr 100) aq_read).
Definition aq_n1 : gst := state_of (exec rle_zlib (gdxDataReadRawStart 1) aq_n).
Definition aq_ns : list resp := answer_of (run rle_zlib (repeat gdxDataReadRaw 3) aq_n1).
Definition aq_n2 : gst := state_of (run rle_zlib (repeat gdxDataReadRaw 3) aq_n1).
Lemma aq_numbers : numbers_from rle_zlib 100 aq_n2.
Proof.
  exists aq_read, [], aq_read, (ret 0), aq_n, (gdxDataReadRawStart 1 :: repeat gdxDataReadRaw 3).
  split; [exists aq_closed, (s2z "v.gdx"), 0, (ret_i 1 [0]); split; [vm_compute; reflexivity|reflexivity]|]. split; [exact aq_nr|]. split; [apply during_nil|].
  split; [constructor|]. split; [constructor|]. split; [vm_compute; reflexivity|]. split; [lia|].
  split; [eapply during_test; [vm_compute; reflexivity|vm_compute; reflexivity]|]. split; [repeat constructor|]. repeat constructor; discriminate.
Qed.
Lemma aq_7 : mapped rle_zlib aq_n2 7 101.
Proof. apply mapped_known. split; [lia|]. eexists. split; [vm_compute; reflexivity|reflexivity]. Qed.
Lemma aq_9 : mapped rle_zlib aq_n2 9 100.
Proof. apply mapped_known. split; [lia|]. eexists. split; [vm_compute; reflexivity|reflexivity]. Qed.
Example C40_case_one_to_one : forall b, mapped rle_zlib aq_n2 b 101 -> b = 7.
Proof. intros b M. destruct (C40_one_to_one _ _ _ _ _ _ aq_numbers aq_7 M) as [E _]. symmetry. exact E. Qed.
Lemma aq_then : then_calls rle_zlib [gdxAcronymNextNr 100] [ret 0] aq_read aq_n.
Proof. split; [|vm_compute; reflexivity]. constructor; [|constructor]. split; [reflexivity|]. exact Logic.I. Qed.
Lemma aq_nreading : raw_reading rle_zlib aq_n 1 aq_ns aq_n2.
Proof. exists aq_n1. split; vm_compute; reflexivity. Qed.
Lemma aq_nnan : answers rle_zlib aq_n gdxMapAcronymsToNaN (ret 0).
Proof. ans. Qed.
Lemma aq_next : next_number rle_zlib aq_n 100.
Proof. ans. Qed.
Example C40_case_translation : exists r m, nth_error aq_ns 2 = Some r /\ reads_acronym rle_zlib r 0 m /\ mapped rle_zlib aq_n2 7 m.
Proof.
  assert (X : exists r, nth_error aq_ns 2 = Some r) by (eexists; vm_compute; reflexivity). destruct X as (r & X). exists r.
  assert (Y : exists m, reads_acronym rle_zlib r 0 m /\ shows_as rle_zlib aq_n2 7 m /\ (forall nx, next_number rle_zlib aq_n nx -> 0 < nx -> mapped rle_zlib aq_n2 7 m)).
  { refine (C40_translation _ _ _ _ _ _ aq_records _ _ _ _ _ 2%nat [3] [acr_7] 0%nat acr_7 7 r aq_wrote (or_introl _) aq_then aq_nreading aq_nnan eq_refl eq_refl acr_7_is _ _ X).
    - discriminate.
    - unfold acronym_range. lia.
    - intros H. repeat (destruct H as [H|H]; [discriminate|]). destruct H. }
  destruct Y as (m & Y1 & _ & Y2). exists m. split; [exact X|]. split; [exact Y1|]. exact (Y2 100 aq_next eq_refl).
Qed.
(** The number stays. *)
Definition aq_n3 : gst := state_of (exec rle_zlib (gdxDataReadStrStart 1) aq_n2).
Example C40_case_stays : mapped rle_zlib aq_n3 7 101.
Proof.
  refine (C40_numbers_stay _ [gdxDataReadDone; gdxDataReadStrStart 1] aq_n2 _ 7 101 _ _ aq_7); [|repeat constructor; discriminate].
  eapply during_test; vm_compute; reflexivity.
Qed.

(** Numbers given by the user with gdxAcronymSetInfo may be the same as numbers the library
    gives: then two acronyms of the file are read as one. *)
Definition aq_x0 : list call := [gdxAcronymSetInfo 1 (s2z "monday") (s2z "first day") 5; gdxAcronymNextNr 5; gdxDataReadRawStart 1; gdxDataReadRaw; gdxDataReadRaw; gdxDataReadRaw].
Definition aq_x : gst := state_of (run rle_zlib aq_x0 aq_read).
Theorem C40_mixed_numbers_refuted : exists st2 cs st a b m, opened_to_read rle_zlib st2 /\ during rle_zlib cs st2 st /\ mapped rle_zlib st a m /\ mapped rle_zlib st b m /\ a <> b.
Proof.
  exists aq_read, aq_x0, aq_x, 7, 9, 5. split; [exists aq_closed, (s2z "v.gdx"), 0, (ret_i 1 [0]); split; [vm_compute; reflexivity|reflexivity]|].
  split; [eapply during_test; [vm_compute; reflexivity|vm_compute; reflexivity]|].
  split; [|split; [|discriminate]]; (apply mapped_known; split; [lia|]; eexists; split; [vm_compute; reflexivity|reflexivity]).
Qed.

Print Assumptions C07_values.
Print Assumptions C07_acronyms_survive.
Print Assumptions C40_translation.
Print Assumptions C40_numbers_stay.
Print Assumptions C40_one_to_one.
Print Assumptions C40_mixed_numbers_refuted.
