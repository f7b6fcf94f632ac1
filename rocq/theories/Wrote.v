(** * Wrote: the records of a symbol, from the calls that wrote it

    A symbol written with label texts or with user numbers: what the file holds of it, in
    terms of the records handed over. *)

From Coq Require Import String Sorted Permutation.
From Verif Require Import Base Prim Values FloatAcr Records LinkedData StrHash IntMap Strings AStream BufStream State
  FileImage ApiCore ApiFile ApiWrite ApiRead Api FileFacts BlockFacts StreamFacts OpenFacts DicInv WriteInv WriteSteps Journal WriteCalls WriteTrace
  Footprint SessInv FileFlow Sessions Vocab PropErr Reopen ReadFacts ReadRecs ReadLoops PropNames PropMeta Segment LabelFacts Buffered Contents Domains.
Open Scope Z_scope.
Open Scope list_scope.

(** ** Specification: sorted, each index tuple once *)

(** [v] are the values that come with the first occurrence of the indices [k]. *)
Definition first_of (k v : list Z) (l : list (list Z * list Z)) : Prop := exists a b, l = a ++ (k, v) :: b /\ ~ In k (List.map fst a).
(** The records [l] in increasing order of the indices, each index tuple once, with the
    values it first had.  A symbol without indices keeps all its records. *)
Definition sorted_once (dim : Z) (l recs : list (list Z * list Z)) : Prop :=
  (dim = 0 -> recs = l) /\
  (dim <> 0 -> StronglySorted lex_lt (List.map fst recs) /\ forall k v, In (k, v) recs <-> first_of k v l).

(** ** The records kept from a sorted list *)

Fixpoint once (prev : option (list Z)) (rs : list (list Z * list Z)) : list (list Z * list Z) :=
  match rs with
  | [] => []
  | (k, v) :: r =>
      match prev, k with
      | Some p, _ :: _ => if list_eq_dec Z.eq_dec p k then once prev r else (k, v) :: once (Some k) r
      | _, _ => (k, v) :: once (Some k) r
      end
  end.
Lemma keep_once : forall d wrb rs prev, keep d wrb prev rs = once prev (filter (fun r => negb (any_violation d wrb (fst r))) rs).
Proof.
  intros d wrb. induction rs as [|[k v] rs IH]; intros prev; [reflexivity|]. cbn [keep filter fst]. destruct (any_violation d wrb k); cbn [negb]; [apply IH|].
  cbn [once]. destruct prev as [p|], k; rewrite ?IH; reflexivity.
Qed.

Lemma first_of_cons : forall k v k0 v0 l, first_of k v ((k0, v0) :: l) <-> (k = k0 /\ v = v0) \/ (k <> k0 /\ first_of k v l).
Proof.
  intros k v k0 v0 l. split.
  - intros (a & b & E & N). destruct a as [|x a]; cbn in E; injection E as E1 E2.
    + left. auto.
    + right. subst x. cbn in N. split; [intuition congruence|]. exists a, b. split; [exact E2|]. intuition.
  - intros [[-> ->]|[N (a & b & -> & F)]].
    + exists [], l. split; [reflexivity|intros []].
    + exists ((k0, v0) :: a), b. split; [reflexivity|]. cbn. intros [H|H]; [congruence|contradiction].
Qed.
Lemma first_of_nil : forall k v, first_of k v [] <-> False.
Proof. intros k v. split; [|contradiction]. intros (a & b & E & _). destruct a; discriminate. Qed.
Lemma first_of_filter : forall k v l, first_of k v l <->
  exists t, filter (fun r => if list_eq_dec Z.eq_dec (fst r) k then true else false) l = (k, v) :: t.
Proof.
  intros k v. induction l as [|[k0 v0] l IH].
  - rewrite first_of_nil. split; [contradiction|intros (t & H); discriminate].
  - rewrite first_of_cons. cbn [filter fst]. destruct (list_eq_dec Z.eq_dec k0 k) as [->|N].
    + split; [intros [[_ ->]|[H _]]; [eauto|congruence]|intros (t & H); injection H as -> _; auto].
    + rewrite <- IH. split; [intros [[H _]|[_ H]]; [congruence|exact H]|intros H; right; auto].
Qed.

Lemma lex_antisym : forall a b, lex_le a b -> lex_le b a -> a = b.
Proof.
  intros a b [H|H] [K|K]; auto. exfalso. exact (lex_lt_irrefl a (lex_lt_trans _ _ _ H K)).
Qed.

Lemma once_in : forall rs prev k v, StronglySorted (fun a b : list Z * list Z => lex_le (fst a) (fst b)) rs -> Forall (fun r => fst r <> []) rs ->
  (forall p, prev = Some p -> Forall (fun r => lex_le p (fst r)) rs) ->
  (In (k, v) (once prev rs) <-> prev <> Some k /\ first_of k v rs).
Proof.
  induction rs as [|[k0 v0] rs IH]; intros prev k v S N P.
  - cbn. rewrite first_of_nil. tauto.
  - inversion S as [|? ? S1 S2]; subst. inversion N as [|? ? N1 N2]; subst. cbn [fst] in N1, S2. rewrite first_of_cons.
    assert (NEW : In (k, v) ((k0, v0) :: once (Some k0) rs) <-> (k = k0 /\ v = v0) \/ (k <> k0 /\ first_of k v rs)).
    { cbn [In]. rewrite (IH (Some k0)); [|exact S1|exact N2|intros p H; injection H as <-; exact S2].
      split; [intros [H|[H1 H2]]; [injection H as <- <-; auto|right; split; [congruence|exact H2]]|intros [[-> ->]|[H1 H2]]; [auto|right; split; [congruence|exact H2]]]. }
    cbn [once]. destruct prev as [p|].
    + specialize (P p eq_refl). inversion P as [|? ? P1 P2]; subst. cbn [fst] in P1. destruct k0 as [|x k0]; [contradiction|]. set (kk := x :: k0) in *. clearbody kk.
      destruct (list_eq_dec Z.eq_dec p kk) as [->|NE].
      * rewrite (IH (Some kk)); [|exact S1|exact N2|intros p H; injection H as <-; exact S2].
        split; [intros [H1 H2]; split; [exact H1|right; split; [congruence|exact H2]]|intros [H1 [[-> _]|[_ H2]]]; [contradiction|auto]].
      * rewrite NEW. split; [|tauto]. intros H. split; [|exact H]. intros E. injection E as ->. destruct H as [[-> _]|[H1 H2]]; [congruence|].
        destruct H2 as (a & b & -> & _). apply Forall_app in S2. destruct S2 as [_ S2]. inversion S2 as [|? ? S3 _]; subst. cbn [fst] in S3. apply NE, lex_antisym; assumption.
    + rewrite NEW. split; [intros H; split; [discriminate|exact H]|tauto].
Qed.

Lemma once_sorted : forall rs prev, StronglySorted (fun a b : list Z * list Z => lex_le (fst a) (fst b)) rs -> Forall (fun r => fst r <> []) rs ->
  (forall p, prev = Some p -> Forall (fun r => lex_le p (fst r)) rs) ->
  StronglySorted lex_lt (List.map fst (once prev rs)).
Proof.
  induction rs as [|[k0 v0] rs IH]; intros prev S N P; [constructor|].
  inversion S as [|? ? S1 S2]; subst. inversion N as [|? ? N1 N2]; subst. cbn [fst] in N1, S2.
  assert (NEW : StronglySorted lex_lt (List.map fst ((k0, v0) :: once (Some k0) rs))).
  { cbn [List.map fst]. constructor; [apply IH; [exact S1|exact N2|intros p H; injection H as <-; exact S2]|].
    apply Forall_forall. intros k I. apply in_map_iff in I. destruct I as ([k' v'] & <- & I). cbn [fst].
    apply (once_in rs (Some k0) k' v' S1 N2) in I; [|intros p0 H0; injection H0 as <-; exact S2]. destruct I as [I1 (a & b & -> & _)].
    apply Forall_app in S2. destruct S2 as [_ S2]. inversion S2 as [|? ? S3 _]; subst. cbn [fst] in S3. destruct S3 as [->|S3]; [congruence|exact S3]. }
  cbn [once]. destruct prev as [p|]; [|exact NEW]. destruct k0 as [|x k0]; [contradiction|]. destruct (list_eq_dec Z.eq_dec p (x :: k0)) as [->|NE]; [|exact NEW].
  apply IH; [exact S1|exact N2|intros p H; injection H as <-; exact S2].
Qed.
Lemma once_scalar : forall rs prev, Forall (fun r => fst r = []) rs -> once prev rs = rs.
Proof.
  induction rs as [|[k v] rs IH]; intros prev N; [reflexivity|]. inversion N as [|? ? N1 N2]; subst. cbn [fst] in N1. subst k. cbn [once].
  rewrite IH by exact N2. destruct prev; reflexivity.
Qed.

Lemma filter_filter : forall {A} (p q : A -> bool) l, filter p (filter q l) = filter q (filter p l).
Proof.
  intros A p q. induction l as [|x l IH]; [reflexivity|]. cbn [filter]. destruct (q x) eqn:Q, (p x) eqn:P; cbn [filter]; rewrite ?P, ?Q, IH; reflexivity.
Qed.
Lemma filter_perm : forall {A} (p : A -> bool) l l', Permutation l l' -> Permutation (filter p l) (filter p l').
Proof.
  intros A p l l' H. induction H; cbn [filter].
  - constructor.
  - destruct (p x); [constructor|]; assumption.
  - destruct (p x), (p y); try reflexivity. constructor.
  - etransitivity; eassumption.
Qed.
Lemma filter_sorted : forall {A} (R : A -> A -> Prop) p l, StronglySorted R l -> StronglySorted R (filter p l).
Proof.
  intros A R p l H. induction H as [|x l S IH F]; cbn [filter]; [constructor|]. destruct (p x); [|exact IH]. constructor; [exact IH|].
  apply Forall_forall. intros y I. apply filter_In in I. rewrite Forall_forall in F. apply F, I.
Qed.
Lemma stable_filter : forall {V} (p : list Z * V -> bool) l rs, stable_sort_of l rs -> stable_sort_of (filter p l) (filter p rs).
Proof.
  intros V p l rs (P & S & F). split; [apply filter_perm; exact P|]. split; [apply filter_sorted; exact S|]. intros k. rewrite filter_filter, F, filter_filter. reflexivity.
Qed.

(** Sorting and then keeping the first of each is what the specification says. *)
Lemma keep_sorted_once : forall d wrb dim items rs, 0 <= dim -> stable_sort_of items rs -> Forall (fun r => length (fst r) = Z.to_nat dim) items ->
  sorted_once dim (filter (fun r => negb (any_violation d wrb (fst r))) items) (keep d wrb None rs).
Proof.
  intros d wrb dim items rs DP SS L. rewrite keep_once. apply (stable_filter (fun r => negb (any_violation d wrb (fst r)))) in SS.
  assert (L' : Forall (fun r : list Z * list Z => length (fst r) = Z.to_nat dim) (filter (fun r => negb (any_violation d wrb (fst r))) items)).
  { apply Forall_forall. intros x I. apply filter_In in I. rewrite Forall_forall in L. apply L, I. }
  set (l := filter _ items) in *. set (l' := filter _ rs) in *. clearbody l l'. destruct SS as (P & S & F).
  assert (L2 : Forall (fun r : list Z * list Z => length (fst r) = Z.to_nat dim) l').
  { apply Forall_forall. intros x I. rewrite Forall_forall in L'. apply L'. eapply Permutation_in; [apply Permutation_sym; exact P|exact I]. }
  split.
  - intros ->. assert (N : Forall (fun r : list Z * list Z => fst r = []) l').
    { eapply Forall_impl; [|exact L2]. intros x H. apply length_zero_iff_nil. exact H. }
    assert (N2 : Forall (fun r : list Z * list Z => fst r = []) l).
    { eapply Forall_impl; [|exact L']. intros x H. apply length_zero_iff_nil. exact H. }
    rewrite once_scalar by exact N. specialize (F []).
    assert (ALL : forall u : list (list Z * list Z), Forall (fun r => fst r = []) u -> filter (fun r => if list_eq_dec Z.eq_dec (fst r) [] then true else false) u = u).
    { induction u as [|x u IH]; intros H; [reflexivity|]. inversion H as [|? ? H1 H2]; subst. cbn [filter]. rewrite H1. destruct (list_eq_dec Z.eq_dec [] []); [|contradiction].
      f_equal. apply IH. exact H2. }
    rewrite !ALL in F by assumption. exact F.
  - intros DN. assert (N : Forall (fun r : list Z * list Z => fst r <> []) l').
    { eapply Forall_impl; [|exact L2]. intros x H E. apply (f_equal (@length Z)) in E. cbn in E, H. lia. }
    split; [apply once_sorted; [exact S|exact N|discriminate]|]. intros k v. rewrite once_in; [|exact S|exact N|discriminate].
    rewrite !first_of_filter, F. split; [intros [_ H]; exact H|intros H; split; [discriminate|exact H]].
Qed.

(** The specification determines the records. *)
Lemma sorted_same : forall (a b : list (list Z * list Z)), StronglySorted lex_lt (List.map fst a) -> StronglySorted lex_lt (List.map fst b) ->
  (forall k v, In (k, v) a <-> In (k, v) b) -> a = b.
Proof.
  induction a as [|[k v] a IH]; intros [|[k' v'] b] SA SB E; [reflexivity| | |].
  - exfalso. apply (proj2 (E k' v')). left. reflexivity.
  - exfalso. apply (proj1 (E k v)). left. reflexivity.
  - cbn [List.map fst] in SA, SB. inversion SA as [|? ? SA1 SA2]; subst. inversion SB as [|? ? SB1 SB2]; subst. rewrite Forall_forall in SA2, SB2.
    assert (LA : forall k0 v0, In (k0, v0) a -> lex_lt k k0) by (intros k0 v0 I; apply SA2, in_map_iff; exists (k0, v0); auto).
    assert (LB : forall k0 v0, In (k0, v0) b -> lex_lt k' k0) by (intros k0 v0 I; apply SB2, in_map_iff; exists (k0, v0); auto).
    assert (HD : (k', v') = (k, v)).
    { destruct (proj1 (E k v)) as [H|H]; [left; reflexivity|exact H|]. destruct (proj2 (E k' v')) as [H2|H2]; [left; reflexivity|congruence|].
      exfalso. apply (lex_lt_irrefl k). eapply lex_lt_trans; [eapply LA; exact H2|eapply LB; exact H]. }
    injection HD as -> ->. f_equal. apply IH; [exact SA1|exact SB1|]. intros k0 v0. specialize (E k0 v0). cbn [In] in E. split; intros I.
    + destruct (proj1 E (or_intror I)) as [H|H]; [|exact H]. injection H as <- <-. exfalso. apply (lex_lt_irrefl k). eapply LA. exact I.
    + destruct (proj2 E (or_intror I)) as [H|H]; [|exact H]. injection H as <- <-. exfalso. apply (lex_lt_irrefl k). eapply LB. exact I.
Qed.
Lemma sorted_once_unique : forall dim l a b, sorted_once dim l a -> sorted_once dim l b -> a = b.
Proof.
  intros dim l a b [A0 A1] [B0 B1]. destruct (Z.eq_dec dim 0) as [E|E]; [rewrite A0, B0 by exact E; reflexivity|].
  destruct (A1 E) as [A2 A3], (B1 E) as [B2 B3]. apply sorted_same; [exact A2|exact B2|]. intros k v. rewrite A3, B3. reflexivity.
Qed.

(** ** Labels and user numbers in a write session *)

Lemma loaded_labels : forall d, labels_inv d -> labels_inv (loaded (contents_of d)).
Proof.
  intros d [L1 L2]. split; cbn [d_uels loaded contents_of c_uels].
  - intros i j a b H1 H2 E. destruct (map_pair_znth _ _ _ _ H1) as (a' & A1 & A2 & _). destruct (map_pair_znth _ _ _ _ H2) as (b' & B1 & B2 & _).
    eapply L1; [exact A1|exact B1|]. congruence.
  - intros i e H. destruct (map_pair_znth _ _ _ _ H) as (a' & A1 & A2 & _). rewrite A2. eapply L2. exact A1.
Qed.
Lemma loaded_user : forall b d, user_inv b (loaded (contents_of d)).
Proof.
  intros b d. constructor; cbn [d_usr d_uels loaded contents_of c_uels].
  - apply im_new_inv.
  - intros n. left. apply im_get_new.
  - intros i e H. destruct (map_pair_znth _ _ _ _ H) as (a' & A1 & A2 & A3). rewrite A3. left. reflexivity.
  - intros _ i e H. destruct (map_pair_znth _ _ _ _ H) as (a' & A1 & A2 & A3). rewrite A3. lia.
  - intros _ n H. cbn in H. lia.
Qed.
Lemma writes_labels : forall z name prod compr cs rs st, writes z name prod compr cs rs st ->
  labels_inv (g_dic st) /\ user_inv true (g_dic st) /\ d_un (g_dic st) = true.
Proof.
  intros z name prod compr cs rs st W. revert name prod compr cs rs st W. apply (writes_dic z (fun d => labels_inv d /\ user_inv true d /\ d_un d = true)).
  - intros st0 name prod compr ra sta O C.
    destruct (created_facts z sta) as (_ & _ & _ & _ & _ & mt & uc & D); [exists st0, name, prod, compr, ra; auto|].
    rewrite D. split; [|split; [|reflexivity]].
    + split; cbn [d_uels]; [intros i j a b H|intros i e H]; rewrite znth_nil in H; discriminate H.
    + constructor; cbn [d_usr d_uels].
      * apply im_new_inv.
      * intros n. left. apply im_get_new.
      * intros i e H. rewrite znth_nil in H. discriminate H.
      * discriminate.
      * discriminate.
  - intros np d _ (L & _ & _). split; [apply loaded_labels; exact L|]. split; [apply loaded_user|reflexivity].
  - intros cs a b D I. eapply (during_dic z (fun d => labels_inv d /\ user_inv true d /\ d_un d = true)); [|exact D|exact I].
    intros c d d' _ A (I1 & I2 & I3). split; [eapply labels_step; eassumption|]. split; [eapply user_step; [left; reflexivity|exact A|exact I2]|].
    destruct (flags_keep _ _ _ A) as (_ & -> & _). exact I3.
Qed.

Lemma found_short : forall d t k, labels_inv d -> found d t k -> zlen t <= 255.
Proof.
  intros d t k [_ G] F. apply found_iff in F. destruct F as [F _]. destruct (sl_find_Some _ _ _ _ F) as (e & E1 & E2). destruct (G _ _ E1) as [G1 _].
  unfold same_text in E2. apply str_eqb_spec in E2. apply (f_equal (@length Z)) in E2. rewrite !map_length in E2.
  unfold good_uel in G1. apply Bool.andb_true_iff in G1. destruct G1 as [G1 _]. rewrite Z.ltb_lt in G1. unfold zlen in *. lia.
Qed.
Lemma label_found_spec : forall z st s k, labels_inv (g_dic st) -> d_un (g_dic st) = true -> label_found z st s k <-> found (g_dic st) (trim_right s) k.
Proof.
  intros z st s k I U. unfold label_found, answers. cbn [exec]. unfold um_find_uel. rewrite U. cbn [negb]. split.
  - intros (u & x & H). unfold trim_store in H. destruct (_ || _); [|discriminate]. cbn [obind] in H.
    destruct (Z.ltb_spec (uel_find (g_dic st) (trim_right s)) 0); [discriminate|]. obind_inv H. injection H as E1 _ _.
    split; [exact E1|]. apply user_map_range in E. lia.
  - intros F. pose proof (found_short _ _ _ I F) as L. unfold trim_store. replace (zlen (trim_right s) <=? 255) with true by (symmetry; apply Z.leb_le; exact L).
    rewrite Bool.orb_true_r. cbn [obind]. apply found_iff in F. destruct F as [F B]. pose proof F as F2. apply sl_find_Some in F2. destruct F2 as (e & F2 & _).
    assert (E : uel_find (g_dic st) (trim_right s) = k) by (unfold uel_find; rewrite F; lia). rewrite E.
    destruct (Z.ltb_spec k 0); [lia|]. unfold user_map. rewrite F2. cbn [obind]. eauto.
Qed.
Lemma label_found_fun : forall z st s k k', label_found z st s k -> label_found z st s k' -> k = k'.
Proof. intros z st s k k' (u & x & H) (u' & x' & H'). rewrite H in H'. injection H' as -> _ _. reflexivity. Qed.

(** ** Specification: who wrote what *)

(** The object [st2] has opened a file, in whose write session the symbol [n] was written
    with raw indices: [recs] are the records that were accepted, [wt] the special values
    of the writer at the time.  The indices are within the bounds given at the start, or
    not negative if none were given; only the first [dim] indices and the number of
    values of the type count. *)
Definition wrote_raw (z : zlib) (st2 : gst) (n dim typ : Z) (wt : list Z) (recs : list (list Z * list Z)) : Prop :=
  exists name prod compr pre sp c id text uinfo mms body r rbody rd sq post st,
    in_parts z name prod compr pre sp (c :: body ++ [gdxDataWriteDone]) (r :: rbody ++ [rd]) sq post st st2 /\
    raw_start c id text dim typ uinfo mms /\ r_code r = 1 /\ length rbody = length body /\ Forall (fun c => within c = true) body /\
    symbols z sp (n - 1) /\ special_values z sp wt /\
    recs = List.map (fun kv => (firstn (Z.to_nat dim) (fst kv), firstn (values_per typ) (snd kv))) (accepted_raw body rbody) /\
    bounds_okb mms = true /\ Forall (fun kv => inside mms (fst kv) = true) recs.

(** What may follow the start of a symbol: nothing, and its records are not checked; or
    the names of its domains, and [doms] are the lists of numbers that these sets contain,
    where something is checked. *)
Definition domain_given (z : zlib) (name prod : str) (compr : Z) (sp s1 st2 : gst) (n dim : Z) (dcs : list call) (rdcs : list resp)
    (doms : list (option (list Z))) : Prop :=
  (dcs = [] /\ rdcs = [] /\ doms = repeat None (Z.to_nat dim)) \/
  (exists ids, dcs = [gdxSymbolSetDomain ids] /\ rdcs = [ret 1] /\ checked_doms z name prod compr sp s1 st2 n dim ids doms).

(** The symbol [n] was written with labels; labels were not renamed from its start on.
    [handed] are the records that were accepted, in the order of the calls; [sd] is the
    writer before the symbol is finished, [sq] the writer after it. *)
Definition str_written (z : zlib) (sd sq st2 : gst) (n dim typ : Z) (wt : list Z) (doms : list (option (list Z))) (handed : list (list str * list Z)) : Prop :=
  exists name prod compr pre sp id text uinfo dcs body r rdcs rbody rd post st s1,
    in_parts z name prod compr pre sp (gdxDataWriteStrStart id text dim typ uinfo :: (dcs ++ body) ++ [gdxDataWriteDone]) (r :: (rdcs ++ rbody) ++ [rd]) sq post st st2 /\
    exec z (gdxDataWriteStrStart id text dim typ uinfo) sp = Done (r, s1) /\ run z (dcs ++ body) s1 = Done (rdcs ++ rbody, sd) /\
    r_code r = 1 /\ length rbody = length body /\ Forall (fun c => within c = true /\ no_domain c = true) body /\ no_rename (body ++ post) /\
    symbols z sp (n - 1) /\ special_values z sp wt /\ domain_given z name prod compr sp s1 st2 n dim dcs rdcs doms /\
    handed = List.map (fun kv => (firstn (Z.to_nat dim) (fst kv), firstn (values_per typ) (snd kv))) (accepted_str body rbody).
(** The numbers of the labels in the file. *)
Definition numbered_by (z : zlib) (st2 : gst) (h : list str * list Z) (it : list Z * list Z) : Prop :=
  Forall2 (label_found z st2) (fst h) (fst it) /\ snd it = snd h.

(** The symbol [n] was written with user numbers; [sp] is the writer right before. *)
Definition map_written (z : zlib) (sp sd sq st2 : gst) (n dim typ : Z) (wt : list Z) (doms : list (option (list Z))) (handed : list (list Z * list Z)) : Prop :=
  exists name prod compr pre id text uinfo dcs body r rdcs rbody rd post st s1,
    in_parts z name prod compr pre sp (gdxDataWriteMapStart id text dim typ uinfo :: (dcs ++ body) ++ [gdxDataWriteDone]) (r :: (rdcs ++ rbody) ++ [rd]) sq post st st2 /\
    exec z (gdxDataWriteMapStart id text dim typ uinfo) sp = Done (r, s1) /\ run z (dcs ++ body) s1 = Done (rdcs ++ rbody, sd) /\
    r_code r = 1 /\ length rbody = length body /\ Forall (fun c => within c = true /\ no_domain c = true) body /\
    symbols z sp (n - 1) /\ special_values z sp wt /\ domain_given z name prod compr sp s1 st2 n dim dcs rdcs doms /\
    handed = List.map (fun kv => (firstn (Z.to_nat dim) (fst kv), firstn (values_per typ) (snd kv))) (accepted_map body rbody).
(** The user number [u] stands for the label with the number [k]. *)
Definition stands_for (z : zlib) (st : gst) (u k : Z) : Prop := exists t, answers z st (gdxGetUEL u) (ret_s 1 [t]) /\ label_found z st t k.
Definition user_numbered (z : zlib) (sp : gst) (h it : list Z * list Z) : Prop := Forall2 (stands_for z sp) (fst h) (fst it) /\ snd it = snd h.

(** The records whose indices are in the domains. *)
Definition in_domains (doms : list (option (list Z))) (items : list (list Z * list Z)) : list (list Z * list Z) := filter (fun it => allowed doms (fst it)) items.

(** In any of these ways the records are [recs], in the session before the file was opened
    by [st2]. *)
Definition wrote_last (z : zlib) (st2 : gst) (n dim typ : Z) (wt : list Z) (recs : list (list Z * list Z)) : Prop :=
  wrote_raw z st2 n dim typ wt recs \/
  (exists sd sq doms handed items, str_written z sd sq st2 n dim typ wt doms handed /\ Forall2 (numbered_by z st2) handed items /\ sorted_once dim (in_domains doms items) recs) \/
  (exists sp sd sq doms handed items, map_written z sp sd sq st2 n dim typ wt doms handed /\ Forall2 (user_numbered z sp) handed items /\ sorted_once dim (in_domains doms items) recs).

(** The object [rd1] has opened a file.  The same file (its content, under the same or
    another name) was then opened by some object with gdxOpenAppend, the calls [cs] were
    made with the answers [rs], it was closed, and [rd2] has opened the result. *)
Definition extended (z : zlib) (rd1 : gst) (cs : list call) (rs : list resp) (rd2 : gst) : Prop :=
  exists name0 prod compr cs0 rs0 st0 F name sta st,
    reopened z name0 prod compr cs0 rs0 st0 rd1 /\ closed_file z st0 name0 F /\ appending z F name sta /\
    run z cs sta = Done (rs, st) /\ reopened z name prod compr cs rs st rd2.
(** Any number of times. *)
Inductive later (z : zlib) : gst -> gst -> Prop :=
| later_same : forall rd, later z rd rd
| later_more : forall rd1 rd2 cs rs rd3, later z rd1 rd2 -> extended z rd2 cs rs rd3 -> later z rd1 rd3.

(** The symbol [n] of the file opened by [st2] was written with the records [recs], in the
    last session or in one before that. *)
Definition wrote (z : zlib) (st2 : gst) (n dim typ : Z) (wt : list Z) (recs : list (list Z * list Z)) : Prop :=
  exists rd1, wrote_last z rd1 n dim typ wt recs /\ later z rd1 st2.

Section Z.
Context (z : zlib).
Notation winv := (winv z).

(** Where the records are. *)
Definition filed (st : gst) (n dim typ : Z) (wt : list Z) (recs : list (list Z * list Z)) : Prop :=
  on_file z st n dim typ (List.map (fun kv => (fst kv, List.map (classify (wt ++ tail_values)) (snd kv))) recs).

(** ** Starting *)

Lemma init_good : forall h base J st, jinv z h base J st -> g_mode st = fw_init -> exists t G, winv h (base ++ t) G st /\ zlen (gR G) = sym_count (g_dic st).
Proof.
  intros h base J st [(t & G & W & R)|(_ & D & _)] M; [|exfalso; rewrite M in D; unfold data_modes in D; cbn in D; intuition discriminate].
  exists t, G. split; [exact W|]. destruct W as [CO _]. pose proof (Forall2_length _ _ _ (co_blk _ _ _ _ _ CO)) as L. unfold sym_count, zlen. lia.
Qed.
Lemma size_of_spec : forall typ, 0 <= typ <= dt_equ -> size_of typ = values_per typ.
Proof.
  intros typ H. unfold size_of, data_size, values_per, dt_equ, dt_var in *. destruct (Z.eqb_spec typ 0); [subst; reflexivity|]. destruct (Z.eqb_spec typ 1); [subst; reflexivity|].
  destruct (Z.eqb_spec typ 2); [subst; reflexivity|]. destruct (Z.eqb_spec typ 3); [subst; reflexivity|]. lia.
Qed.

Lemma str_begin : forall h base J id text dim typ uinfo sp r s1, jinv z h base J sp -> labels_inv (g_dic sp) ->
  while_writing (gdxDataWriteStrStart id text dim typ uinfo) ->
  exec z (gdxDataWriteStrStart id text dim typ uinfo) sp = Done (r, s1) -> r_code r = 1 ->
  exists t, str_state z h (base ++ t) (sym_count (g_dic sp) + 1) [] s1 /\ w_dim (g_wrk s1) = Z.to_nat dim /\ w_dsize (g_wrk s1) = values_per typ /\
    w_wrb (g_wrk s1) = repeat None (Z.to_nat dim) /\ e_tab (g_env s1) = e_tab (g_env sp).
Proof.
  intros h base J id text dim typ uinfo sp r s1 JI LI [K O] H C.
  assert (ST : starting (gdxDataWriteStrStart id text dim typ uinfo) id text dim typ uinfo) by (right; right; right; reflexivity).
  destruct (start_idle _ _ _ _ _ _ _ _ _ _ _ _ _ JI ST H C) as (_ & _ & MS & _).
  destruct (init_good _ _ _ _ JI) as (t & G & W & LG); [apply MS|]. cbn [exec] in H. cbn [call_ok] in O.
  destruct (str_start_step _ _ _ _ _ _ _ _ _ _ _ _ W O H) as [(-> & _)|((-> & GI & M0 & EN & AF & M1 & W1 & B1 & B2 & B3 & B4) & LS & LL)]; [discriminate|].
  exists t. assert (DS : w_dsize (g_wrk s1) = values_per typ).
  { rewrite <- size_of_spec by apply MS. unfold size_of. rewrite B2. reflexivity. }
  split; [|split; [exact B1|split; [exact DS|split; [exact B3|congruence]]]]. constructor.
  - eexists. split; [exact W1|]. cbn [gC]. rewrite LG. reflexivity.
  - rewrite M1. left. reflexivity.
  - eapply (call_dic z labels_inv (gdxDataWriteStrStart id text dim typ uinfo)); [reflexivity|exact O|exact H| |exact LI]. intros d d' A. apply (labels_step _ _ _ A).
  - rewrite LS, LL. generalize (Z.to_nat dim). intros m. unfold cache_found. induction m as [|m IH]; cbn [repeat]; constructor; [left; reflexivity|exact IH].
  - rewrite LL, B1. apply repeat_length.
Qed.

Lemma map_begin : forall h base J id text dim typ uinfo sp r s1, jinv z h base J sp ->
  while_writing (gdxDataWriteMapStart id text dim typ uinfo) ->
  exec z (gdxDataWriteMapStart id text dim typ uinfo) sp = Done (r, s1) -> r_code r = 1 ->
  exists t, map_state z h (base ++ t) (sym_count (g_dic sp) + 1) [] s1 /\ w_dim (g_wrk s1) = Z.to_nat dim /\ w_dsize (g_wrk s1) = values_per typ /\
    w_wrb (g_wrk s1) = repeat None (Z.to_nat dim) /\ e_tab (g_env s1) = e_tab (g_env sp) /\ d_usr (g_dic s1) = d_usr (g_dic sp).
Proof.
  intros h base J id text dim typ uinfo sp r s1 JI [K O] H C.
  assert (ST : starting (gdxDataWriteMapStart id text dim typ uinfo) id text dim typ uinfo) by (right; right; left; reflexivity).
  destruct (start_idle _ _ _ _ _ _ _ _ _ _ _ _ _ JI ST H C) as (_ & _ & MS & _).
  destruct (start_effect _ _ _ _ _ _ _ _ _ _ ST H) as [(-> & _)|(_ & _ & s & _ & DD)]; [discriminate|].
  destruct (init_good _ _ _ _ JI) as (t & G & W & LG); [apply MS|]. cbn [exec] in H. cbn [call_ok] in O.
  destruct (map_start_step _ _ _ _ _ _ _ _ _ _ _ _ W O H) as [(-> & _)|(-> & GI & M0 & EN & AF & M1 & W1 & B1 & B2 & B3 & B4)]; [discriminate|].
  exists t. assert (DS : w_dsize (g_wrk s1) = values_per typ).
  { rewrite <- size_of_spec by apply MS. unfold size_of. rewrite B2. reflexivity. }
  split; [|split; [exact B1|split; [exact DS|split; [exact B3|split; [congruence|rewrite DD; reflexivity]]]]]. split.
  - eexists. split; [exact W1|]. cbn [gC]. rewrite LG. reflexivity.
  - rewrite M1. left. reflexivity.
Qed.

(** ** Finishing *)

Lemma item_length : forall h base G n items st, winv h base G st -> gC G = GBuf n items ->
  Forall (fun r => length (fst r) = w_dim (g_wrk st) /\ Forall (fun k => 0 <= k) (fst r) /\ Forall u64_ok (snd r)) items.
Proof.
  intros h base G n items st [_ P] E. unfold WriteInv.phase in P. rewrite E in P. destruct P as [P _]. pose proof (bp_sym _ _ _ _ _ P) as (sy & s & _ & D & _ & L & _).
  pose proof (bp_items _ _ _ _ _ P) as I. pose proof (bp_mms _ _ _ _ _ P) as M. eapply Forall_impl; [|exact I]. intros r (A & _ & B). split; [|split; [|exact B]].
  - apply Forall2_length in A. congruence.
  - clear - A M. revert M. induction A as [|mm k mms ks B A IH]; intros M; constructor; inversion M as [|? ? M1 M2]; subst.
    + unfold in_bounds, mm_ok in *. lia.
    + apply IH. exact M2.
Qed.

Lemma seg_split : forall c body (r : resp) rbody rd sp sq, run z (c :: body ++ [gdxDataWriteDone]) sp = Done (r :: rbody ++ [rd], sq) -> length rbody = length body ->
  exists s1 sd, exec z c sp = Done (r, s1) /\ run z body s1 = Done (rbody, sd) /\ exec z gdxDataWriteDone sd = Done (rd, sq).
Proof.
  intros c body r rbody rd sp sq R L. destruct (run_cons _ _ _ _ _ _ R) as (r' & s1 & rs' & E1 & R1 & ER). injection ER as <- <-.
  destruct (run_split _ _ _ _ _ _ R1) as (ra & sd & rb & R2 & R3 & ER). destruct (run_cons _ _ _ _ _ _ R3) as (x & s2 & y & E2 & R4 & ->).
  injection R4 as <- <-.
  apply app_inj_tail in ER. destruct ER as [-> ->]. eauto.
Qed.

Lemma buf_close : forall name prod compr pre sp c id text dim typ uinfo body r rbody rd sq post st st2 s1 sd t G items,
  in_parts z name prod compr pre sp (c :: body ++ [gdxDataWriteDone]) (r :: rbody ++ [rd]) sq post st st2 ->
  starting c id text dim typ uinfo -> r_code r = 1 -> exec z c sp = Done (r, s1) -> run z body s1 = Done (rbody, sd) -> exec z gdxDataWriteDone sd = Done (rd, sq) ->
  let n := sym_count (g_dic sp) + 1 in
  winv (new_head prod compr) ([] ++ t) G sd -> gC G = GBuf n items -> ~ In (Some n) (w_wrb (g_wrk sd)) ->
  exists F sy rs, stable_sort_of items rs /\ reads_file z F (d_names (g_dic st)) (uel_count (g_dic st)) st2 /\
    e_tab (g_env st2) = default_tab /\ e_rtab (g_env st2) = default_tab /\
    znth (d_names (g_dic st)) (n - 1) = Some (id, sy) /\ sy_dim sy = Z.to_nat dim /\ sy_type sy = typ /\ 0 <= dim <= 20 /\ 0 <= typ <= dt_equ /\
    block_at z (z_host z) F sy (stored_items (e_tab (g_env sd)) (g_dic sd) (w_wrb (g_wrk sd)) rs) /\
    on_file z st2 n dim typ (stored_items (e_tab (g_env sd)) (g_dic sd) (w_wrb (g_wrk sd)) rs) /\
    g_err sq = set_r_cnt 0 (refused_errs (g_dic sd) (w_wrb (g_wrk sd)) None rs (g_err sd)) /\ g_mode sq = fw_init.
Proof.
  intros name prod compr pre sp c id text dim typ uinfo body r rbody rd sq post st st2 s1 sd t G items IP S C E1 R1 E2 n W GC NI.
  pose proof IP as (rp & rq & _ & R0 & _ & RO). pose proof RO as (_ & _ & _ & _ & _ & _ & _ & _ & _ & (_ & UC & _) & _).
  destruct (parts_jinv _ _ _ _ _ _ _ _ _ _ _ _ IP) as (rpre & J0 & _ & JI & FS & FP & D1 & D2 & KEEP).
  inversion FS as [|? ? [K1 K2] FS']; subst. apply Forall_app in FS'. destruct FS' as [FB FD].
  assert (DD : during z ([gdxDataWriteDone] ++ post) sd st).
  { eapply during_trans; [|exact D2]. destruct (keeps_all _ FD) as [A1 A2]. split; [exact A1|]. split; [exact A2|]. exists [rd]. cbn [run]. rewrite E2. reflexivity. }
  assert (UD : uel_count (g_dic sd) <= INT_MAX).
  { eapply Z.le_trans; [|exact UC]. eapply (during_dic z (fun d => uel_count (g_dic sd) <= uel_count d)); [|exact DD|lia].
    intros c' d d' _ A L. pose proof (ReadFacts.uels_grow c' d d' A). lia. }
  destruct (buf_finish z _ _ _ _ _ _ _ _ _ W GC UD NI E2) as (J & rs & SS & JQ & NA & ER).
  destruct (KEEP _ _ _ JQ NA) as (J' & JST & NA' & _).
  destruct (back_from _ _ _ _ _ _ _ _ _ RO JST) as (F & Q & Q1 & Q2 & BL).
  assert (D3 : during z (body ++ ([gdxDataWriteDone] ++ post)) s1 st).
  { eapply during_trans; [|exact DD]. destruct (keeps_all _ FB) as [A1 A2]. split; [exact A1|]. split; [exact A2|]. eauto. }
  destruct (started_symbol _ _ _ _ _ _ _ _ _ _ _ _ S E1 C D3) as (B1 & B2 & sy & S1 & S2 & S3).
  assert (NN : n - 1 = sym_count (g_dic sp)) by (unfold n; lia).
  exists F, sy, rs. split; [exact SS|]. split; [exact Q|]. split; [exact Q1|]. split; [exact Q2|]. rewrite NN.
  split; [exact S1|]. split; [exact S2|]. split; [exact S3|]. split; [exact B1|]. split; [exact B2|].
  rewrite <- NN in S1. destruct (BL n id sy _ S1 NA') as [BL1 BL2]. assert (DE : Z.of_nat (sy_dim sy) = dim) by (clear - S2 B1; lia). rewrite DE, S3 in BL2.
  split; [exact BL1|]. split; [exact BL2|exact ER].
Qed.

(** ** What every written symbol has *)

Lemma five_distinct : forall name prod compr pre rpre sp, writes z name prod compr pre rpre sp -> NoDup (firstn 5 (e_tab (g_env sp))).
Proof.
  intros name prod compr pre rpre sp W. apply has_dup_spec. destruct (writes_start _ _ _ _ _ _ _ W) as (sta & FA & RR & DU & _ & E1 & _).
  eapply (during_state z (fun s => tab_ok s)) with (cs := pre) (a := sta).
  + intros c0 a b _ Y A. destruct A; try exact Y.
    * destruct H as (_ & _ & [H|[H|(five & L5 & DD & H)]]); unfold tab_ok in *; change (g_env (upd_env f st)) with (f (g_env st)); rewrite H.
      -- exact Y.
      -- split; [cbn; lia|reflexivity].
      -- rewrite app_length, firstn_app, L5, Nat.sub_diag, firstn_O, app_nil_r, firstn_all2 by lia. split; [lia|exact DD].
    * unfold set_error. destruct (n =? 0); exact Y.
  + intros a Y. exact Y.
  + exact DU.
  + unfold tab_ok. rewrite E1. split; [cbn; lia|reflexivity].
Qed.
Lemma reopened_mode : forall name prod compr cs rs st st2, reopened z name prod compr cs rs st st2 -> g_mode st2 = fr_init.
Proof.
  intros name prod compr cs rs st st2 (_ & _ & r1 & st1 & F' & rdd & rm & _ & _ & _ & _ & _ & _ & _ & O). destruct (opened_read_facts z st2) as (X & _); [|exact X].
  exists rdd, name, rm, (ret_i 1 [0]). split; [exact O|reflexivity].
Qed.
Lemma no_wrb_clean : forall d k keys, any_violation d (repeat None k) keys = false.
Proof. intros d. induction k as [|k IH]; intros [|x keys]; cbn [repeat any_violation]; try reflexivity. rewrite IH. reflexivity. Qed.
Lemma filter_all : forall {A} (p : A -> bool) l, (forall x, p x = true) -> filter p l = l.
Proof. intros A p l H. induction l as [|x l IH]; [reflexivity|]. cbn [filter]. rewrite H, IH. reflexivity. Qed.

(** A symbol written from collected records: [rs] are these in the order in which they
    are stored or refused. *)
Lemma buf_holds : forall name prod compr pre sp c id text dim typ uinfo body r rbody rd sq post st st2 s1 sd t G items,
  in_parts z name prod compr pre sp (c :: body ++ [gdxDataWriteDone]) (r :: rbody ++ [rd]) sq post st st2 ->
  starting c id text dim typ uinfo -> r_code r = 1 -> exec z c sp = Done (r, s1) -> run z body s1 = Done (rbody, sd) -> exec z gdxDataWriteDone sd = Done (rd, sq) ->
  let n := sym_count (g_dic sp) + 1 in
  winv (new_head prod compr) ([] ++ t) G sd -> gC G = GBuf n items ->
  w_dim (g_wrk sd) = Z.to_nat dim -> e_tab (g_env sd) = e_tab (g_env sp) -> ~ In (Some n) (w_wrb (g_wrk sd)) ->
  exists rs, stable_sort_of items rs /\ sorted_once dim (filter (fun r => negb (any_violation (g_dic sd) (w_wrb (g_wrk sd)) (fst r))) items) (keep (g_dic sd) (w_wrb (g_wrk sd)) None rs) /\
    holds z st2 n dim typ (firstn 5 (e_tab (g_env sp))) (keep (g_dic sd) (w_wrb (g_wrk sd)) None rs) /\ tabs st2 standard_values standard_values /\
    filed st2 n dim typ (firstn 5 (e_tab (g_env sp))) (keep (g_dic sd) (w_wrb (g_wrk sd)) None rs) /\
    g_err sq = set_r_cnt 0 (refused_errs (g_dic sd) (w_wrb (g_wrk sd)) None rs (g_err sd)) /\ g_mode sq = fw_init.
Proof.
  intros name prod compr pre sp c id text dim typ uinfo body r rbody rd sq post st st2 s1 sd t G items IP S C E1 R1 E2 n W GC WD ET NI.
  destruct (buf_close _ _ _ _ _ _ _ _ _ _ _ _ _ _ _ _ _ _ _ _ _ _ _ _ IP S C E1 R1 E2 W GC NI) as (F & sy & rs & SS & Q & T1 & T2 & ZN & SD & ST & D & T & BL & OF & ER).
  pose proof IP as (rpre & rpost & WR & _). destruct (writer_tab _ _ _ _ _ _ _ WR) as [WL WT].
  pose proof (item_length _ _ _ _ _ _ W GC) as IL.
  assert (LEN : Forall (fun r : list Z * list Z => length (fst r) = Z.to_nat dim) items).
  { eapply Forall_impl; [|exact IL]. intros a (X & _). congruence. }
  pose proof (keep_sorted_once (g_dic sd) (w_wrb (g_wrk sd)) dim items rs ltac:(lia) SS LEN) as SO.
  exists rs. split; [exact SS|]. split; [exact SO|]. split; [|split; [repeat split; assumption|split; [|exact ER]]].
  2:{ unfold filed. rewrite <- WT. unfold stored_items in OF. rewrite ET in OF. exact OF. }
  split; [exact WL|]. split.
  - assert (IN : forall kv, In kv (keep (g_dic sd) (w_wrb (g_wrk sd)) None rs) -> In kv items).
    { intros [k v] I. assert (X : In (k, v) (filter (fun r => negb (any_violation (g_dic sd) (w_wrb (g_wrk sd)) (fst r))) items)); [|apply filter_In in X; apply X].
      destruct SO as [SO1 SO2]. destruct (Z.eq_dec dim 0) as [E0|E0]; [rewrite (SO1 E0) in I; exact I|].
      apply (proj2 (SO2 E0)) in I. destruct I as (a & b & -> & _). apply in_or_app. right. left. reflexivity. }
    apply Forall_forall. intros kv I. rewrite Forall_forall in IL. destruct (IL kv (IN kv I)) as (X1 & X2 & X3). unfold good_rec. split; [congruence|]. auto.
  - split; [exact D|]. split; [exact T|]. exists F, (d_names (g_dic st)), (uel_count (g_dic st)), id, sy. split; [exact Q|]. split; [exact ZN|]. split; [exact SD|]. split; [exact ST|].
    rewrite <- WT. unfold stored_items in BL. rewrite ET in BL. exact BL.
Qed.

Lemma Forall2_map_l : forall {A B C} (f : A -> B) (R : B -> C -> Prop) l m, Forall2 R (List.map f l) m <-> Forall2 (fun x => R (f x)) l m.
Proof.
  intros A B C f R. induction l as [|x l IH]; intros m; cbn [List.map]; split; intros H; inversion H; subst; constructor; try assumption; apply IH; assumption.
Qed.

Lemma stands_spec : forall st u k, labels_inv (g_dic st) -> user_inv true (g_dic st) -> d_un (g_dic st) = true ->
  im_get (d_usr (g_dic st)) u = k -> 1 <= k -> stands_for z st u k.
Proof.
  intros st u k LI UI UN E B. destruct (ui_get _ _ UI u) as [X|(_ & s & X)]; [lia|]. rewrite E in X. exists s. split.
  - exists st. cbn [exec]. unfold get_uel. rewrite UN, E. cbn [negb]. destruct (Z.leb_spec 1 k); [|lia]. unfold uel_text. rewrite X. reflexivity.
  - apply label_found_spec; [exact LI|exact UN|]. destruct LI as [LD LG]. destruct (LG _ _ X) as [_ TR]. cbn [fst] in TR. rewrite TR.
    apply found_iff. split; [|exact B]. eapply sl_find_unique; [exact LD|exact X|]. apply same_text_refl.
Qed.
Lemma stands_fun : forall st u k k', stands_for z st u k -> stands_for z st u k' -> k = k'.
Proof.
  intros st u k k' (t & (x & A) & B) (t' & (x' & A') & B'). rewrite A in A'. injection A' as -> _. eapply label_found_fun; eassumption.
Qed.

Lemma checked_after : forall name prod compr pre sp c id text dim typ uinfo ids body tl r rbody rtl sq post st st2 s1 s2 sd doms,
  in_parts z name prod compr pre sp (c :: gdxSymbolSetDomain ids :: body ++ tl) (r :: ret 1 :: rbody ++ rtl) sq post st st2 ->
  starting c id text dim typ uinfo -> r_code r = 1 -> exec z c sp = Done (r, s1) -> exec z (gdxSymbolSetDomain ids) s1 = Done (ret 1, s2) ->
  run z body s2 = Done (rbody, sd) ->
  let n := sym_count (g_dic sp) + 1 in
  w_cur (g_wrk s1) = CSym n -> w_dim (g_wrk s1) = Z.to_nat dim -> w_wrb (g_wrk s1) = repeat None (Z.to_nat dim) ->
  w_cur (g_wrk sd) <> CNull -> w_wrb (g_wrk sd) = w_wrb (g_wrk s2) ->
  checked_doms z name prod compr sp s1 st2 n dim ids doms -> run z tl sd = Done (rtl, sq) ->
  Forall2 (dom_check (g_dic sd)) (w_wrb (g_wrk sd)) doms /\ ~ In (Some n) (w_wrb (g_wrk sd)).
Proof.
  intros name prod compr pre sp c id text dim typ uinfo ids body tl r rbody rtl sq post st st2 s1 s2 sd doms IP S C E1 E2 R1 n CU WD WB CN WW CD E3.
  pose proof IP as (rp & rq & _ & R0 & R9 & RO). destruct (parts_jinv _ _ _ _ _ _ _ _ _ _ _ _ IP) as (rpre & J0 & W & JI & FS & FP & _ & D2 & _).
  inversion FS as [|? ? FS1 FS']; subst. inversion FS' as [|? ? FS2 FS3]; subst. apply Forall_app in FS3. destruct FS3 as [FB FD].
  destruct (start_effect _ _ _ _ _ _ _ _ _ _ S E1) as [(-> & _)|(_ & MS & s & FR & DD)]; [discriminate|].
  assert (D : 0 <= dim) by apply MS.
  assert (SC : sym_count (g_dic s1) = n) by (rewrite DD; unfold sym_count, n, sym_count; cbn [d_names set_d_names]; unfold zlen; rewrite app_length; cbn; lia).
  assert (G : get_sym (g_dic s1) n = Some s).
  { apply get_sym_znth. exists id. rewrite DD. cbn [d_names set_d_names]. apply StrHash.znth_snoc. right. unfold n, sym_count. split; [lia|reflexivity]. }
  assert (SD : sy_dim s = w_dim (g_wrk s1)) by (destruct FR as (X & _); congruence).
  destruct (domain_entries z _ _ _ _ _ _ _ _ _ _ _ _ _ W FS1 E1 CU SC G SD ltac:(rewrite WD; exact WB) E2) as (FE & NI & BT & RB). rewrite WW. split; [|exact NI].
  rewrite WD in FE. eapply (doms_check z); [exact CD|exact D|exact FE|exact BT|exact RB| |].
  - intros m HB. eapply has_bits_during; [|exact HB]. destruct (keeps_all [c] ltac:(constructor; [exact FS1|constructor])) as [A1 A2]. split; [exact A1|]. split; [exact A2|].
    exists [r]. cbn [run]. rewrite E1. reflexivity.
  - intros m l k SB MR K. eapply (members_checked z) with (cs1 := c :: gdxSymbolSetDomain ids :: body) (cs2 := tl ++ post); try eassumption.
    + constructor; [exact FS1|]. constructor; [exact FS2|exact FB].
    + cbn [run]. rewrite E1. cbn [obind]. rewrite E2. cbn [obind]. rewrite R1. reflexivity.
    + apply Forall_app. split; [exact FD|exact FP].
    + eapply run_app; [exact E3|exact R9].
    + pose proof (writes_bits z _ _ _ _ _ _ (writes_snoc z _ _ _ _ _ _ _ _ _ W FS1 E1)) as BS.
      destruct (keeps_all (gdxSymbolSetDomain ids :: body) ltac:(constructor; [exact FS2|exact FB])) as [A1 A2].
      eapply (during_dic z bits_typed) with (cs := gdxSymbolSetDomain ids :: body) (a := s1); [|split; [exact A1|split; [exact A2|]]|exact BS].
      * intros c' d d' _ A. apply (bits_typed_step c' d d' A).
      * eexists. cbn [run]. rewrite E2. cbn [obind]. rewrite R1. reflexivity.
Qed.

Lemma filter_ext_Forall : forall {A} (P : A -> Prop) (p q : A -> bool) l, Forall P l -> (forall x, P x -> p x = q x) -> filter p l = filter q l.
Proof. intros A P p q l F H. induction F as [|x l PX F IH]; [reflexivity|]. cbn [filter]. rewrite (H x PX), IH. reflexivity. Qed.

Lemma buf_cur : forall h base G n items st, winv h base G st -> gC G = GBuf n items -> w_cur (g_wrk st) = CSym n.
Proof. intros h base G n items st [_ P] E. unfold WriteInv.phase in P. rewrite E in P. destruct P as [P _]. exact (bp_cur _ _ _ _ _ P). Qed.

(** Between the start of a symbol and the records. *)
Lemma given_after : forall name prod compr pre sp c id text dim typ uinfo dcs body tl r rdcs rbody rtl sq post st st2 s1 sd doms,
  in_parts z name prod compr pre sp (c :: (dcs ++ body) ++ tl) (r :: (rdcs ++ rbody) ++ rtl) sq post st st2 ->
  starting c id text dim typ uinfo -> r_code r = 1 -> exec z c sp = Done (r, s1) -> run z (dcs ++ body) s1 = Done (rdcs ++ rbody, sd) ->
  let n := sym_count (g_dic sp) + 1 in
  length rbody = length body -> w_cur (g_wrk s1) = CSym n -> w_dim (g_wrk s1) = Z.to_nat dim -> w_wrb (g_wrk s1) = repeat None (Z.to_nat dim) ->
  w_cur (g_wrk sd) <> CNull -> domain_given z name prod compr sp s1 st2 n dim dcs rdcs doms ->
  (forall s2, run z body s2 = Done (rbody, sd) -> run z dcs s1 = Done (rdcs, s2) -> w_wrb (g_wrk sd) = w_wrb (g_wrk s2)) ->
  run z tl sd = Done (rtl, sq) ->
  Forall2 (dom_check (g_dic sd)) (w_wrb (g_wrk sd)) doms /\ ~ In (Some n) (w_wrb (g_wrk sd)).
Proof.
  intros name prod compr pre sp c id text dim typ uinfo dcs body tl r rdcs rbody rtl sq post st st2 s1 sd doms IP S C E1 R1 n L CU WD WB CN DG WW E3.
  destruct DG as [(-> & -> & ->)|(ids & -> & -> & CD)]; cbn [app] in *.
  - rewrite (WW s1 R1 eq_refl), WB. split; [|intros I; apply repeat_spec in I; discriminate].
    clear. induction (Z.to_nat dim); constructor; [intros k _; reflexivity|assumption].
  - destruct (run_cons _ _ _ _ _ _ R1) as (r' & s2 & rs' & E2 & R2 & ER). injection ER as <- <-.
    eapply checked_after; try eassumption. apply WW; [exact R2|]. cbn [run]. rewrite E2. reflexivity.
Qed.
Lemma given_within : forall name prod compr sp s1 st2 n dim dcs rdcs doms, domain_given z name prod compr sp s1 st2 n dim dcs rdcs doms ->
  Forall (fun c => within c = true) dcs /\ no_rename dcs /\ length rdcs = length dcs /\
  (forall body rbody, accepted_str (dcs ++ body) (rdcs ++ rbody) = accepted_str body rbody) /\
  (forall body rbody, accepted_map (dcs ++ body) (rdcs ++ rbody) = accepted_map body rbody).
Proof.
  intros name prod compr sp s1 st2 n dim dcs rdcs doms [(-> & -> & _)|(ids & -> & -> & _)]; (split; [repeat constructor|split; [repeat constructor|split; [reflexivity|split; reflexivity]]]).
Qed.

(** The records [items] as they were sorted, which of them are stored and which refused. *)
Definition settled (sd sq st2 : gst) (n dim typ : Z) (wt : list Z) (doms : list (option (list Z))) (items : list (list Z * list Z)) : Prop :=
  exists d wrb rs, stable_sort_of items rs /\ Forall2 (dom_check d) wrb doms /\ Forall (fun r => length (fst r) = Z.to_nat dim /\ Forall (fun k => 0 <= k) (fst r)) items /\
    sorted_once dim (in_domains doms items) (keep d wrb None rs) /\
    holds z st2 n dim typ wt (keep d wrb None rs) /\ tabs st2 standard_values standard_values /\ g_mode st2 = fr_init /\ (NoDup wt /\ filed st2 n dim typ wt (keep d wrb None rs)) /\
    g_err sq = set_r_cnt 0 (refused_errs d wrb None rs (g_err sd)) /\ g_mode sq = fw_init.

Lemma str_settled : forall sd sq st2 n dim typ wt doms handed, str_written z sd sq st2 n dim typ wt doms handed ->
  exists items, Forall2 (numbered_by z st2) handed items /\ settled sd sq st2 n dim typ wt doms items.
Proof.
  intros sd sq st2 n dim typ wt doms handed (name & prod & compr & pre & sp & id & text & uinfo & dcs & body & r & rdcs & rbody & rd & post & st & s1 &
    IP & E1 & R1 & C & L & WI & NR & SY & SV & DG & ->).
  apply symbols_iff in SY. apply special_iff in SV. assert (NE : n = sym_count (g_dic sp) + 1) by lia. subst n. subst wt.
  pose proof IP as (rp & rq & _ & R0 & _ & RO). pose proof RO as (WST & _).
  destruct (parts_jinv _ _ _ _ _ _ _ _ _ _ _ _ IP) as (rpre & J0 & WP & JI & FS & FP & _ & D2 & _).
  destruct (given_within _ _ _ _ _ _ _ _ _ _ _ DG) as (GW & GR & GL & GA & _).
  destruct (seg_split _ _ _ _ _ _ _ R0 ltac:(rewrite !app_length; congruence)) as (s1' & sd' & E1' & R1' & E3).
  rewrite E1 in E1'. injection E1' as <-. rewrite R1 in R1'. injection R1' as <-.
  destruct (writes_labels _ _ _ _ _ _ _ WP) as (LI & _ & _). destruct (writes_labels _ _ _ _ _ _ _ WST) as (LST & _ & UST).
  inversion FS as [|? ? FS1 FS']; subst. apply Forall_app in FS'. destruct FS' as [FB FD].
  assert (ST : starting (gdxDataWriteStrStart id text dim typ uinfo) id text dim typ uinfo) by (right; right; right; reflexivity).
  destruct (str_begin _ _ _ _ _ _ _ _ _ _ _ JI LI FS1 E1 C) as (t & SS & B1 & B2 & B3 & B4).
  apply Forall_and_inv in WI. destruct WI as [WI1 WI2]. apply Forall_app in NR. destruct NR as [NR1 NR2].
  assert (CU : w_cur (g_wrk s1) = CSym (sym_count (g_dic sp) + 1)) by (destruct SS as [(G0 & W0 & GC0) _ _ _ _]; eapply buf_cur; eassumption).
  assert (WW : forall s2, run z body s2 = Done (rbody, sd) -> run z dcs s1 = Done (rdcs, s2) -> w_wrb (g_wrk sd) = w_wrb (g_wrk s2)).
  { intros s2 Q1 Q2. apply Forall_app in FB. destruct FB as [FB1 FB2]. destruct (str_body z _ _ _ _ _ _ _ _ SS FB1 GW GR Q2) as (i0 & S2 & _).
    destruct (str_body z _ _ _ _ _ _ _ _ S2 FB2 WI1 NR1 Q1) as (_ & _ & _ & X & _). apply X. exact WI2. }
  destruct (str_body z _ _ _ _ _ _ _ _ SS FB ltac:(apply Forall_app; split; assumption) ltac:(apply Forall_app; split; assumption) R1) as (items & [(G & W & GC) _ LSD _ _] & (X1 & X2 & X3) & _ & N). cbn [app] in GC.
  rewrite GA in N.
  assert (CUD : w_cur (g_wrk sd) <> CNull) by (rewrite (buf_cur _ _ _ _ _ _ W GC); discriminate).
  destruct (given_after _ _ _ _ _ _ _ _ _ _ _ _ _ _ _ _ _ _ _ _ _ _ _ _ _ IP ST C E1 R1 L CU B1 B3 CUD DG WW ltac:(cbn [run]; rewrite E3; reflexivity)) as [DC NI].
  destruct (buf_holds _ _ _ _ _ _ _ _ _ _ _ _ _ _ _ _ _ _ _ _ _ _ _ _ IP ST C E1 R1 E3 W GC) as (rs & SR & SO & HO & TA & OF & ER); [congruence|congruence|exact NI|].
  pose proof (item_length _ _ _ _ _ _ W GC) as IL.
  rewrite (filter_ext_Forall _ _ (fun it => allowed doms (fst it)) _ IL) in SO.
  2:{ intros x (_ & NN & _). rewrite (allowed_spec _ _ _ _ DC NN), Bool.negb_involutive. reflexivity. }
  exists items. split.
  - rewrite B1, B2 in N.
    assert (DD : during z ([gdxDataWriteDone] ++ post) sd st).
    { eapply during_trans; [|exact D2]. destruct (keeps_all _ FD) as [A1 A2]. split; [exact A1|]. split; [exact A2|]. exists [rd]. cbn [run]. rewrite E3. reflexivity. }
    apply (numbered_during z _ _ _ _ _ _ _ DD) in N; [|constructor; [reflexivity|exact NR2]|exact LSD].
    apply Forall2_map_l. eapply Forall2_weaken; [|exact N]. intros x y [Y1 Y2]. split; [|exact Y2]. cbn [fst]. eapply Forall2_weaken; [|exact Y1].
    intros s k F. apply (proj2 (C20_labels_are_found_again _ _ _ _ _ _ _ _ RO)). apply label_found_spec; assumption.
  - exists (g_dic sd), (w_wrb (g_wrk sd)), rs. split; [exact SR|]. split; [exact DC|]. split; [eapply Forall_impl; [|exact IL]; intros x (A & B & _); split; [congruence|exact B]|].
    split; [exact SO|]. split; [exact HO|]. split; [exact TA|]. split; [eapply reopened_mode; exact RO|]. split; [split; [eapply five_distinct; exact WP|exact OF]|exact ER].
Qed.

Lemma map_settled : forall sp sd sq st2 n dim typ wt doms handed, map_written z sp sd sq st2 n dim typ wt doms handed ->
  exists items, Forall2 (user_numbered z sp) handed items /\ settled sd sq st2 n dim typ wt doms items.
Proof.
  intros sp sd sq st2 n dim typ wt doms handed (name & prod & compr & pre & id & text & uinfo & dcs & body & r & rdcs & rbody & rd & post & st & s1 &
    IP & E1 & R1 & C & L & WI & SY & SV & DG & ->).
  apply symbols_iff in SY. apply special_iff in SV. assert (NE : n = sym_count (g_dic sp) + 1) by lia. subst n. subst wt.
  pose proof IP as (rp & rq & _ & R0 & _ & RO).
  destruct (parts_jinv _ _ _ _ _ _ _ _ _ _ _ _ IP) as (rpre & J0 & WP & JI & FS & FP & _ & D2 & _).
  destruct (given_within _ _ _ _ _ _ _ _ _ _ _ DG) as (GW & _ & GL & _ & GA).
  destruct (seg_split _ _ _ _ _ _ _ R0 ltac:(rewrite !app_length; congruence)) as (s1' & sd' & E1' & R1' & E3).
  rewrite E1 in E1'. injection E1' as <-. rewrite R1 in R1'. injection R1' as <-.
  destruct (writes_labels _ _ _ _ _ _ _ WP) as (LI & UI & UN).
  inversion FS as [|? ? FS1 FS']; subst. apply Forall_app in FS'. destruct FS' as [FB FD].
  assert (ST : starting (gdxDataWriteMapStart id text dim typ uinfo) id text dim typ uinfo) by (right; right; left; reflexivity).
  destruct (map_begin _ _ _ _ _ _ _ _ _ _ _ JI FS1 E1 C) as (t & SS & B1 & B2 & B3 & B4 & B5).
  apply Forall_and_inv in WI. destruct WI as [WI1 WI2].
  assert (CU : w_cur (g_wrk s1) = CSym (sym_count (g_dic sp) + 1)) by (destruct SS as [(G0 & W0 & GC0) _]; eapply buf_cur; eassumption).
  assert (WW : forall s2, run z body s2 = Done (rbody, sd) -> run z dcs s1 = Done (rdcs, s2) -> w_wrb (g_wrk sd) = w_wrb (g_wrk s2)).
  { intros s2 Q1 Q2. apply Forall_app in FB. destruct FB as [FB1 FB2]. destruct (map_body z _ _ _ _ _ _ _ _ SS FB1 GW Q2) as (i0 & S2 & _).
    destruct (map_body z _ _ _ _ _ _ _ _ S2 FB2 WI1 Q1) as (_ & _ & _ & X & _). apply X. exact WI2. }
  destruct (map_body z _ _ _ _ _ _ _ _ SS FB ltac:(apply Forall_app; split; assumption) R1) as (items & [(G & W & GC) _] & (X1 & X2 & X3) & _ & _ & N). cbn [app] in GC.
  rewrite GA in N.
  assert (CUD : w_cur (g_wrk sd) <> CNull) by (rewrite (buf_cur _ _ _ _ _ _ W GC); discriminate).
  destruct (given_after _ _ _ _ _ _ _ _ _ _ _ _ _ _ _ _ _ _ _ _ _ _ _ _ _ IP ST C E1 R1 L CU B1 B3 CUD DG WW ltac:(cbn [run]; rewrite E3; reflexivity)) as [DC NI].
  destruct (buf_holds _ _ _ _ _ _ _ _ _ _ _ _ _ _ _ _ _ _ _ _ _ _ _ _ IP ST C E1 R1 E3 W GC) as (rs & SR & SO & HO & TA & OF & ER); [congruence|congruence|exact NI|].
  pose proof (item_length _ _ _ _ _ _ W GC) as IL.
  rewrite (filter_ext_Forall _ _ (fun it => allowed doms (fst it)) _ IL) in SO.
  2:{ intros x (_ & NN & _). rewrite (allowed_spec _ _ _ _ DC NN), Bool.negb_involutive. reflexivity. }
  exists items. split.
  - rewrite B1, B2, B5 in N. apply Forall2_map_l. eapply Forall2_weaken; [|exact N]. intros x y [Y1 Y2]. split; [|exact Y2]. cbn [fst]. eapply Forall2_weaken; [|exact Y1].
    intros u k [F B]. apply stands_spec; assumption.
  - exists (g_dic sd), (w_wrb (g_wrk sd)), rs. split; [exact SR|]. split; [exact DC|]. split; [eapply Forall_impl; [|exact IL]; intros x (A & B & _); split; [congruence|exact B]|].
    split; [exact SO|]. split; [exact HO|]. split; [exact TA|]. split; [eapply reopened_mode; exact RO|]. split; [split; [eapply five_distinct; exact WP|exact OF]|exact ER].
Qed.

Lemma str_holds : forall sd sq st2 n dim typ wt doms handed, str_written z sd sq st2 n dim typ wt doms handed ->
  exists items recs, Forall2 (numbered_by z st2) handed items /\ sorted_once dim (in_domains doms items) recs /\
    holds z st2 n dim typ wt recs /\ tabs st2 standard_values standard_values /\ g_mode st2 = fr_init /\ NoDup wt /\ filed st2 n dim typ wt recs.
Proof.
  intros sd sq st2 n dim typ wt doms handed W. destruct (str_settled _ _ _ _ _ _ _ _ _ W) as (items & NB & d & wrb & rs & _ & _ & _ & SO & HO & TA & M & ND & _).
  destruct ND as [ND OF]. exists items, (keep d wrb None rs). auto 10.
Qed.
Lemma map_holds : forall sp sd sq st2 n dim typ wt doms handed, map_written z sp sd sq st2 n dim typ wt doms handed ->
  exists items recs, Forall2 (user_numbered z sp) handed items /\ sorted_once dim (in_domains doms items) recs /\
    holds z st2 n dim typ wt recs /\ tabs st2 standard_values standard_values /\ g_mode st2 = fr_init /\ NoDup wt /\ filed st2 n dim typ wt recs.
Proof.
  intros sp sd sq st2 n dim typ wt doms handed W. destruct (map_settled _ _ _ _ _ _ _ _ _ _ W) as (items & NB & d & wrb & rs & _ & _ & _ & SO & HO & TA & M & ND & _).
  destruct ND as [ND OF]. exists items, (keep d wrb None rs). auto 10.
Qed.
End Z.

Lemma inside_length : forall mms keys, inside mms keys = true -> length keys = length mms.
Proof.
  induction mms as [|mm mms IH]; intros [|k keys]; cbn; try discriminate; try reflexivity. intros H. apply Bool.andb_true_iff in H. destruct H as [_ H].
  f_equal. apply IH. exact H.
Qed.
Lemma inside_nonneg : forall mms keys, bounds_okb mms = true -> inside mms keys = true -> Forall (fun k => 0 <= k) keys.
Proof.
  induction mms as [|mm mms IH]; intros [|k keys] B H; cbn in *; try discriminate; constructor.
  - rewrite !Bool.andb_true_iff in *. lia.
  - rewrite !Bool.andb_true_iff in *. apply IH; tauto.
Qed.
Lemma accepted_raw_in : forall body rbody kv, In kv (accepted_raw body rbody) -> In (gdxDataWriteRaw (fst kv) (snd kv)) body.
Proof.
  induction body as [|c body IH]; intros [|r rbody] kv H; try destruct H. cbn [accepted_raw] in H. apply in_app_or in H. destruct H as [H|H].
  - destruct c; try destruct H. destruct (r_code r =? 1); [|destruct H]. destruct H as [<-|[]]. left. reflexivity.
  - right. eapply IH. exact H.
Qed.
Lemma Forall_firstn : forall {A} (P : A -> Prop) l n, Forall P l -> Forall P (firstn n l).
Proof. intros A P l n F. rewrite <- (firstn_skipn n l) in F. apply Forall_app in F. apply F. Qed.

Lemma raw_holds : forall z st2 n dim typ wt recs, wrote_raw z st2 n dim typ wt recs ->
  holds z st2 n dim typ wt recs /\ tabs st2 standard_values standard_values /\ g_mode st2 = fr_init /\ NoDup wt /\ filed z st2 n dim typ wt recs.
Proof.
  intros z st2 n dim typ wt recs (name & prod & compr & pre & sp & c & id & text & uinfo & mms & body & r & rbody & rd & sq & post & st &
    IP & RS & C & L & WI & SY & SV & -> & BO & IN).
  apply symbols_iff in SY. apply special_iff in SV. rewrite Forall_map in IN. cbn [fst] in IN.
  destruct (raw_parts z _ _ _ _ _ _ _ _ _ _ _ _ _ _ _ _ _ _ _ _ IP RS C L WI BO IN) as (F & sy & Q & T1 & T2 & ZN & SD & ST & D & T & BL & OF).
  pose proof IP as (rpre & rpost & W & R0 & R1 & RO). destruct (writer_tab _ _ _ _ _ _ _ W) as [WL WT]. rewrite SV in WL, WT.
  assert (M2 : g_mode st2 = fr_init).
  { destruct RO as (_ & _ & r1 & st1 & F' & rdd & rm & _ & _ & _ & _ & _ & _ & _ & O). destruct (opened_read_facts z st2) as (X & _); [|exact X].
    exists rdd, name, rm, (ret_i 1 [0]). split; [exact O|reflexivity]. }
  split; [|split; [repeat split; assumption|split; [exact M2|]]].
  - split; [exact WL|]. split.
    { rewrite Forall_map. apply Forall_forall. intros kv I. rewrite Forall_forall in IN. specialize (IN kv I). unfold good_rec. cbn [fst snd].
      split; [|split; [eapply inside_nonneg; eassumption|]].
      - destruct BL as (ds & ms & nn & bs & la & _ & LM & _ & _ & RK & _). rewrite Forall_forall in RK.
        destruct (RK (firstn (Z.to_nat dim) (fst kv), List.map (classify (e_tab (g_env sp))) (firstn (size_of typ) (snd kv)))) as [RB _].
        + unfold raw_recs. apply in_map_iff. exists kv. auto.
        + cbn [fst] in RB. apply Forall2_length in RB. congruence.
      - apply accepted_raw_in in I. destruct IP as (? & ? & _ & _ & _ & WA & _). destruct (writes_last _ _ _ _ _ _ _ WA) as (sta & FA & _).
        rewrite Forall_forall in FA. destruct (FA (gdxDataWriteRaw (fst kv) (snd kv))) as [_ K].
        { apply in_or_app. right. apply in_or_app. left. right. apply in_or_app. left. exact I. }
        apply Forall_firstn. apply K. }
    split; [exact D|]. split; [exact T|]. exists F, (d_names (g_dic st)), (uel_count (g_dic st)), id, sy.
    split; [exact Q|]. rewrite SY. replace (n - 1) with (sym_count (g_dic sp)) in * by lia.
    split; [replace (sym_count (g_dic sp) + 1 - 1) with (sym_count (g_dic sp)) in ZN by lia; exact ZN|]. split; [exact SD|]. split; [exact ST|].
    rewrite map_map. cbn [fst snd]. rewrite <- WT, <- size_of_spec by exact T. exact BL.
  - split; [rewrite <- SV; eapply five_distinct; exact W|]. unfold filed. rewrite map_map. cbn [fst snd]. rewrite <- WT, <- size_of_spec by exact T.
    replace n with (sym_count (g_dic sp) + 1) by lia. exact OF.
Qed.


Lemma Forall2_fun : forall {A B} (R : A -> B -> Prop) l m m', (forall x y y', R x y -> R x y' -> y = y') -> Forall2 R l m -> Forall2 R l m' -> m = m'.
Proof.
  intros A B R l m m' F H. revert m'. induction H as [|x y l m HR H IH]; intros m' K; inversion K; subst; [reflexivity|]. f_equal; eauto.
Qed.
Lemma numbered_by_fun : forall z st2 h a b, numbered_by z st2 h a -> numbered_by z st2 h b -> a = b.
Proof.
  intros z st2 h [a1 a2] [b1 b2] [A1 A2] [B1 B2]. cbn [fst snd] in *. f_equal; [|congruence]. eapply Forall2_fun; [|exact A1|exact B1]. apply label_found_fun.
Qed.
Lemma user_numbered_fun : forall z sp h a b, user_numbered z sp h a -> user_numbered z sp h b -> a = b.
Proof.
  intros z sp h [a1 a2] [b1 b2] [A1 A2] [B1 B2]. cbn [fst snd] in *. f_equal; [|congruence]. eapply Forall2_fun; [|exact A1|exact B1]. apply stands_fun.
Qed.

Lemma last_holds : forall z st2 n dim typ wt recs, wrote_last z st2 n dim typ wt recs ->
  holds z st2 n dim typ wt recs /\ tabs st2 standard_values standard_values /\ g_mode st2 = fr_init /\ NoDup wt /\ filed z st2 n dim typ wt recs.
Proof.
  intros z st2 n dim typ wt recs [W|[(sd & sq & doms & handed & items & W & F & S)|(sp & sd & sq & doms & handed & items & W & F & S)]].
  - apply raw_holds. exact W.
  - destruct (str_holds _ _ _ _ _ _ _ _ _ _ W) as (items' & recs' & F' & S' & H). pose proof (Forall2_fun _ _ _ _ (numbered_by_fun z st2) F F') as <-.
    pose proof (sorted_once_unique _ _ _ _ S S') as <-. exact H.
  - destruct (map_holds _ _ _ _ _ _ _ _ _ _ _ W) as (items' & recs' & F' & S' & H). pose proof (Forall2_fun _ _ _ _ (user_numbered_fun z sp) F F') as <-.
    pose proof (sorted_once_unique _ _ _ _ S S') as <-. exact H.
Qed.

(** ** Appending leaves the records alone *)

Lemma same_split : forall {A} (a b x y : list A), a ++ x = b ++ y -> length a = length b -> a = b.
Proof.
  intros A. induction a as [|h a IH]; intros [|k b] x y E L; try discriminate L; [auto|]. cbn [app] in E. injection E as -> E. injection L as L. f_equal. eapply IH; eassumption.
Qed.
Lemma Forall2_zset_r : forall {A B} (P : A -> B -> Prop) l m i b, Forall2 P l m -> (forall a, znth l i = Some a -> P a b) -> Forall2 P l (zset i b m).
Proof.
  intros A B P l m i b F. unfold znth, zset. destruct (i <? 0); [intros; exact F|]. generalize (Z.to_nat i) as n.
  induction F as [|x y l m H F IH]; intros [|n] Q; cbn in *; constructor; auto.
Qed.

Lemma extended_on_file : forall z rd1 cs rs rd2 n dim typ recs, extended z rd1 cs rs rd2 -> on_file z rd1 n dim typ recs ->
  on_file z rd2 n dim typ recs /\
  exists F tab k nm sy, reads_file z F tab k rd2 /\ znth tab (n - 1) = Some (nm, sy) /\ sy_dim sy = Z.to_nat dim /\ sy_type sy = typ /\ block_at z (z_host z) F sy recs.
Proof.
  intros z rd1 cs rs rd2 n dim typ recs (name0 & prod & compr & cs0 & rs0 & st0 & F & name & sta & st & RO & CF & AP & R & RO2) OF.
  pose proof RO as (W & M & r & st1 & F' & rd & rm & E & DG & CT & SZ & CR & DR & RM & O).
  destruct CF as (_ & r' & st1' & E' & DG' & _ & _). rewrite E in E'. injection E' as <- <-. rewrite DG in DG'. injection DG' as ->.
  destruct (writes_jinv _ _ _ _ _ _ _ W) as ((J & JI) & NM & NE).
  destruct (close_writes _ _ _ _ _ _ _ JI M E) as (F' & m & G & H1 & _ & _ & _ & _ & _ & C). rewrite H1, NM, disk_get_put in DG. injection DG as ->. specialize (C CT SZ).
  destruct (reopen_ok z _ _ _ _ _ _ _ _ C CR NE DR RM) as (s & ops & _ & O'). rewrite O' in O. injection O as <-.
  set (h := new_head prod compr) in *. set (d := g_dic st0) in *.
  destruct OF as (base & tail & nm & sy & E1 & E2 & E3 & E4 & E5 & E6 & B).
  change (f_start (g_fil _)) with F in E1. change (f_nwp (g_fil _)) with (mj_nwp m) in E2. change (f_mip (g_fil _)) with (zlen (enc_head (z_host z) h)) in E3.
  change (d_names (g_dic _)) with (List.map (fun e : str * sym => (fst e, FileFacts.stored (snd e))) (d_names d)) in E4.
  rewrite PropMeta.znth_map in E4. destruct (znth (d_names d) (n - 1)) as [[nm0 sy0]|] eqn:Z0; [|discriminate]. cbn [option_map fst snd] in E4. injection E4 as <- <-.
  assert (C2 : complete z F h m d (zset (n - 1) (Some recs) (gR G))).
  { destruct C as [HO MO WF IM BL DI (base' & tail' & FE & MN & HD & BK & DB)].
    assert (BE : base = base').
    { apply (same_split base base' tail tail'); [congruence|unfold zlen in *; lia]. }
    subst base'. constructor; try assumption.
    - apply Forall2_zset_r; [exact BL|]. intros e Z1. rewrite Z0 in Z1. injection Z1 as <-. cbn [snd].
      destruct B as (dsize & mms & k & bs & last & B1 & B2 & B3 & B4 & B5 & B6 & B7). exists dsize, mms, k, bs, last. repeat (split; [assumption|]).
      rewrite FE. apply phys_at_app. exact B7.
    - exists base, tail'. split; [exact FE|]. split; [exact MN|]. split; [exact HD|]. split; [|exact DB].
      apply Forall2_zset_r; [exact BK|]. intros e Z1. rewrite Z0 in Z1. injection Z1 as <-. cbn [fst snd blk].
      split; [exact B|]. split; [exact E3|]. intros x Q. discriminate Q. }
  destruct AP as (ob & CL & NE' & DO & EA). destruct (append_ok z _ _ _ _ _ _ _ C2 CL NE' DO) as (sta' & base2 & EA' & WI & DD & MA & TA & _).
  rewrite EA' in EA. injection EA as ->.
  assert (JA : jinv z h [] (first_journal (zset (n - 1) (Some recs) (gR G))) sta).
  { eapply jinv_any. left. exists [], (mkG (zset (n - 1) (Some recs) (gR G)) GIdle). rewrite app_nil_r. split; [exact WI|].
    constructor; cbn; [symmetry; exact TA| |auto]. clear. induction (zset _ _ _); constructor; auto. right; reflexivity. }
  assert (NA : noted_at (first_journal (zset (n - 1) (Some recs) (gR G))) n recs).
  { split; [|exact I]. cbn [j_syms first_journal]. apply znth_zset_eq. apply znth_Some in Z0. pose proof (Forall2_length _ _ _ (cp_blocks _ _ _ _ _ _ C)) as L. unfold zlen in *. lia. }
  pose proof RO2 as (W2 & _). destruct (writes_last _ _ _ _ _ _ _ W2) as (_ & FA & _).
  pose proof (jinv_run _ _ _ _ _ _ _ _ JA FA R) as JI2. pose proof (noted_run cs rs _ _ _ NA) as NA2.
  destruct (back_from _ _ _ _ _ _ _ _ _ RO2 JI2) as (F2 & Q & _ & _ & BL).
  pose proof (during_grow _ _ _ _ (keeps_during _ _ _ _ _ FA R)) as GR.
  destruct (GR (n - 1) (nm0, FileFacts.stored sy0)) as ([nm2 sy2] & Z2 & _ & K).
  { rewrite DD. cbn [d_names loaded c_syms contents_of]. rewrite PropMeta.znth_map, Z0. reflexivity. }
  cbn [snd] in K. destruct K as (K1 & K2 & _). destruct (BL _ _ _ _ Z2 (proj1 NA2)) as [B1 B2].
  assert (S1 : sy_dim sy2 = Z.to_nat dim) by congruence. assert (S2 : sy_type sy2 = typ) by congruence.
  split.
  - destruct B2 as (b & t & nm3 & sy3 & X1 & X2 & X3 & X4 & X5 & X6 & X7). exists b, t, nm3, sy3. rewrite Nat2Z.id in X5. repeat (split; [congruence || assumption|]). exact X7.
  - exists F2, (d_names (g_dic st)), (uel_count (g_dic st)), nm2, sy2. auto.
Qed.

Lemma wrote_holds : forall z st2 n dim typ wt recs, wrote z st2 n dim typ wt recs ->
  holds z st2 n dim typ wt recs /\ tabs st2 standard_values standard_values /\ g_mode st2 = fr_init /\ NoDup wt /\ filed z st2 n dim typ wt recs.
Proof.
  intros z st2 n dim typ wt recs (rd1 & W & L). apply last_holds in W. induction L as [|rd1 rd2 cs rs rd3 L IH X]; [exact W|].
  destruct (IH W) as ((H1 & H2 & H3 & H4 & _) & _ & _ & ND & FI). destruct (extended_on_file _ _ _ _ _ _ _ _ _ X FI) as (FI2 & H5).
  destruct X as (name0 & prod & compr & cs0 & rs0 & st0 & F & name & sta & st & _ & _ & _ & _ & RO).
  split; [split; [exact H1|split; [exact H2|split; [exact H3|split; [exact H4|exact H5]]]]|].
  split; [|split; [eapply reopened_mode; exact RO|split; [exact ND|exact FI2]]].
  destruct (writes_jinv _ _ _ _ _ _ _ (proj1 RO)) as ((J & JI) & _). destruct (back_from _ _ _ _ _ _ _ _ _ RO JI) as (_ & _ & T1 & T2 & _). repeat split; assumption.
Qed.
Lemma wrote_now : forall z st2 n dim typ wt recs, wrote_last z st2 n dim typ wt recs -> wrote z st2 n dim typ wt recs.
Proof. intros z st2 n dim typ wt recs W. exists st2. split; [exact W|constructor]. Qed.

