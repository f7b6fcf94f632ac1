(** * Properties of refused records: C31, C45 *)

From Coq Require Import String Permutation Sorted.
From Verif Require Import Base Prim Values FloatAcr Records LinkedData StrHash IntMap Strings AStream BufStream State
  FileImage ApiCore ApiFile ApiWrite ApiRead Api FileFacts BlockFacts StreamFacts OpenFacts DicInv WriteInv WriteSteps Journal WriteCalls WriteTrace
  Footprint SessInv FileFlow Sessions Vocab PropErr Reopen ReadFacts ReadRecs ReadLoops Cases PropNames PropMeta PropTexts PropDomain Segment LabelFacts Buffered Contents
  Domains Wrote PropRead PropStrings.
Open Scope Z_scope.
Open Scope list_scope.

(** ** C31: domain checking *)

(** What is read back is in the domains; what was handed over and is in the domains is read
    back, if not with these values, then with those of a record with the same indices; and
    every record that is not in the domains is an error. *)
Definition checked_result (z : zlib) (sd sq st3 : gst) (n : Z) (wt rt : list Z) (doms : list (option (list Z))) (items : list (list Z * list Z)) : Prop :=
  exists recs f, translates wt rt f /\ reads_all z st3 n (as_read f None recs) /\
    (forall r, In r recs -> In r items /\ allowed doms (fst r) = true) /\
    (forall r, In r items -> allowed doms (fst r) = true -> In (fst r) (List.map fst recs)) /\
    (forall e e', errors z sd e -> errors z sq e' -> e' = e + (zlen items - zlen recs) /\ e + zlen (filter (fun r => negb (allowed doms (fst r))) items) <= e').

Lemma first_exists : forall k l, In k (List.map fst l) -> exists v, first_of k v l.
Proof.
  intros k. induction l as [|[k' v'] l IH]; intros I; [destruct I|]. destruct (list_eq_dec Z.eq_dec k' k) as [->|N].
  - exists v', [], l. split; [reflexivity|intros []].
  - destruct I as [I|I]; [contradiction|]. destruct (IH I) as (v & a & b & -> & NI). exists v, ((k', v') :: a), b. split; [reflexivity|]. intros [X|X]; [contradiction|exact (NI X)].
Qed.
Lemma filter_count : forall {A} (p : A -> bool) l, zlen (filter p l) + zlen (filter (fun x => negb (p x)) l) = zlen l.
Proof. intros A p. induction l as [|x l IH]; [reflexivity|]. unfold zlen in *. cbn [filter length]. destruct (p x); cbn [negb filter length] in *; lia. Qed.
Lemma once_length : forall dim l recs, sorted_once dim l recs -> zlen recs <= zlen l.
Proof.
  intros dim l recs [S1 S2]. destruct (Z.eq_dec dim 0) as [E|E]; [rewrite (S1 E); lia|]. destruct (S2 E) as [SS IFF].
  assert (ND : NoDup recs).
  { apply (NoDup_map_inv fst). clear - SS. induction (List.map fst recs) as [|k m IH]; constructor; inversion SS as [|? ? SS' F]; subst.
    - intros I. rewrite Forall_forall in F. apply (lex_lt_irrefl k). apply F. exact I.
    - apply IH. exact SS'. }
  unfold zlen. apply inj_le. apply NoDup_incl_length; [exact ND|]. intros [k v] I. apply IFF in I. destruct I as (a & b & -> & _). apply in_or_app. right. left. reflexivity.
Qed.

Lemma settled_checked : forall z sd sq st2 n dim typ wt doms items rcs rrs st3, settled z sd sq st2 n dim typ wt doms items -> dim <> 0 \/ items <> [] ->
  then_calls z rcs rrs st2 st3 -> fresh rcs rrs -> Forall (fun h => Forall (fun x => is_acronym wt x = false) (snd h)) items \/ no_numbering z st3 ->
  checked_result z sd sq st3 n wt (reader_values rcs rrs standard_values) doms items.
Proof.
  intros z sd sq st2 n dim typ wt doms items rcs rrs st3 SE NE TC FR NA. pose proof SE as (d & wrb & rs & _ & _ & IL & SO & HO & TA & M & _).
  set (recs := keep d wrb None rs) in *. clearbody recs.
  assert (NE' : dim <> 0 \/ in_domains doms items <> []).
  { destruct (Z.eq_dec dim 0) as [E|E]; [right|left; exact E]. rewrite (domains_empty dim); [|eapply Forall_impl; [|exact IL]; intros x X; apply X|exact E].
    destruct NE as [X|X]; [contradiction|exact X]. }
  assert (NA' : no_acronyms wt recs \/ e_nextacr (g_env st3) <= 0).
  { destruct NA as [NA|NA]; [left|right; eapply no_numbering_env; exact NA].
    apply (once_records _ _ _ (fun r => Forall (fun x => is_acronym wt x = false) (snd r)) SO). apply domains_in. exact NA. }
  pose proof (fresh_mode _ _ _ _ _ TC FR M) as M3. destruct (tabs_then _ _ _ _ _ _ _ TC TA) as (t & T3). apply (holds_then _ _ _ _ _ _ _ _ _ _ TC) in HO.
  exists recs, (sees st3 wt). split; [intros x U A; eapply sees_plain; try eassumption; apply HO|].
  split; [eapply raw_back_ready; try eassumption; eapply once_nil; eassumption|].
  assert (KEEP : forall r, In r recs -> In r (in_domains doms items)).
  { apply Forall_forall. apply (once_records _ _ _ (fun r => In r (in_domains doms items)) SO). apply Forall_forall. auto. }
  split; [intros r I; apply KEEP in I; apply filter_In in I; exact I|]. split.
  - intros [k v] I A. cbn [fst] in *. destruct SO as [S1 S2]. assert (IN : In (k, v) (in_domains doms items)) by (apply filter_In; auto).
    destruct (Z.eq_dec dim 0) as [E|E]; [rewrite (S1 E); apply in_map_iff; exists (k, v); auto|].
    destruct (first_exists k (in_domains doms items)) as (v' & F); [apply in_map_iff; exists (k, v); auto|]. apply (proj2 (S2 E)) in F. apply in_map_iff. exists (k, v'). auto.
  - intros e e' E1 E2. pose proof (settled_count _ _ _ _ _ _ _ _ _ _ _ _ SE SO E1) as X. apply errors_iff in X. apply errors_iff in E2.
    pose proof (filter_count (fun r : list Z * list Z => allowed doms (fst r)) items) as FC. pose proof (once_length _ _ _ SO) as OL. unfold in_domains in OL. cbv beta in FC. lia.
Qed.

(** Records written with labels are checked by the numbers of the labels. *)
Theorem C31_labels_are_checked : forall z sd sq st2 n dim typ wt doms handed rcs rrs st3, str_written z sd sq st2 n dim typ wt doms handed -> dim <> 0 \/ handed <> [] ->
  then_calls z rcs rrs st2 st3 -> fresh rcs rrs -> Forall (fun h => Forall (fun x => is_acronym wt x = false) (snd h)) handed \/ no_numbering z st3 ->
  exists items, Forall2 (numbered_by z st2) handed items /\ checked_result z sd sq st3 n wt (reader_values rcs rrs standard_values) doms items.
Proof.
  intros z sd sq st2 n dim typ wt doms handed rcs rrs st3 W NE TC FR NA. destruct (str_settled _ _ _ _ _ _ _ _ _ _ W) as (items & NB & SE).
  exists items. split; [exact NB|]. eapply settled_checked; [exact SE| |exact TC|exact FR|].
  - destruct NE as [X|X]; [left; exact X|right; intros ->; inversion NB; subst; apply X; reflexivity].
  - destruct NA as [NA|NA]; [left|right; exact NA]. clear - NB NA. induction NB as [|h it hs its [_ X] F IH]; constructor; inversion NA; subst; [rewrite X; assumption|auto].
Qed.
(** Records written with user numbers are checked by the labels these stand for. *)
Theorem C31_user_numbers_are_checked : forall z sp sd sq st2 n dim typ wt doms handed rcs rrs st3, map_written z sp sd sq st2 n dim typ wt doms handed -> dim <> 0 \/ handed <> [] ->
  then_calls z rcs rrs st2 st3 -> fresh rcs rrs -> Forall (fun h => Forall (fun x => is_acronym wt x = false) (snd h)) handed \/ no_numbering z st3 ->
  exists items, Forall2 (user_numbered z sp) handed items /\ checked_result z sd sq st3 n wt (reader_values rcs rrs standard_values) doms items.
Proof.
  intros z sp sd sq st2 n dim typ wt doms handed rcs rrs st3 W NE TC FR NA. destruct (map_settled _ _ _ _ _ _ _ _ _ _ _ W) as (items & NB & SE).
  exists items. split; [exact NB|]. eapply settled_checked; [exact SE| |exact TC|exact FR|].
  - destruct NE as [X|X]; [left; exact X|right; intros ->; inversion NB; subst; apply X; reflexivity].
  - destruct NA as [NA|NA]; [left|right; exact NA]. clear - NB NA. induction NB as [|h it hs its [_ X] F IH]; constructor; inversion NA; subst; [rewrite X; assumption|auto].
Qed.

(** ** C45: the list of error records *)

(** The error records are [l]: as many, and one after the other. *)
Definition errors_listed (z : zlib) (st : gst) (l : list (list Z * list Z)) : Prop :=
  answers z st gdxDataErrorCount (ret (zlen l)) /\
  forall i r, znth l (i - 1) = Some r -> answers z st (gdxDataErrorRecordX i) (ret_iv 1 (fst r) (snd r)).

Definition error_list (e : errs) : list (list Z * list Z) := match r_list e with Some l => l | None => [] end.
Definition record_modes : list gmode := [fr_init; fw_init; fr_map_data; fr_mapr_data; fw_raw_data; fw_map_data; fw_str_data].
Lemma listed_to : forall z st, mode_in (g_mode st) record_modes = true -> errors_listed z st (error_list (g_err st)).
Proof.
  intros z st M. unfold errors_listed, answers, error_list. cbn [exec]. unfold data_error_count, data_error_record_x, checked. unfold record_modes in M. rewrite M. split.
  - exists st. destruct (r_list (g_err st)); reflexivity.
  - intros i r ZN. exists st. destruct (r_list (g_err st)) as [l|]; [|rewrite znth_nil in ZN; discriminate]. rewrite ZN. destruct r. reflexivity.
Qed.
Lemma nth_error_ext_len : forall {A} (a b : list A), length a = length b -> (forall i x y, nth_error a i = Some x -> nth_error b i = Some y -> x = y) -> a = b.
Proof.
  intros A. induction a as [|x a IH]; intros [|y b] L H; try discriminate; [reflexivity|]. f_equal; [exact (H O x y eq_refl eq_refl)|].
  apply IH; [injection L as L; exact L|]. intros i. exact (H (S i)).
Qed.
Lemma listed_from : forall z st l, errors_listed z st l -> error_list (g_err st) = l.
Proof.
  intros z st l [(st' & C) A]. cbn [exec] in C. unfold data_error_count in C. injection C as L _.
  assert (EL : zlen (error_list (g_err st)) = zlen l) by (unfold error_list; destruct (r_list (g_err st)); exact L).
  apply nth_error_ext_len; [unfold zlen in EL; lia|]. intros i x y HX HY.
  assert (ZY : znth l (Z.of_nat i + 1 - 1) = Some y).
  { unfold znth. replace (Z.of_nat i + 1 - 1) with (Z.of_nat i) by lia. destruct (Z.ltb_spec (Z.of_nat i) 0); [lia|]. rewrite Nat2Z.id. exact HY. }
  destruct (A _ _ ZY) as (s' & B). cbn [exec] in B. unfold data_error_record_x, checked in B.
  destruct (mode_in _ _); [|unfold refuse in B; discriminate B]. unfold error_list in HX. destruct (r_list (g_err st)) as [l'|]; [|destruct i; discriminate].
  assert (ZX : znth l' (Z.of_nat i + 1 - 1) = Some x).
  { unfold znth. replace (Z.of_nat i + 1 - 1) with (Z.of_nat i) by lia. destruct (Z.ltb_spec (Z.of_nat i) 0); [lia|]. rewrite Nat2Z.id. exact HX. }
  rewrite ZX in B. destruct x as [kx vx], y as [ky vy]. cbn [fst snd] in B. injection B as -> -> _. reflexivity.
Qed.

(** The records [rs] in the order in which they are stored or refused: refused are those
    that are not in the domains, shown with the indices outside negated, and those whose
    indices a stored record has. *)
Fixpoint outside (doms : list (option (list Z))) (keys : list Z) : list Z :=
  match doms, keys with
  | dom :: doms', k :: keys' => match dom with Some l => if existsb (Z.eqb k) l then k else - k | None => k end :: outside doms' keys'
  | _, _ => keys
  end.
Definition repeated (stored : list (list Z)) (keys : list Z) : bool :=
  match keys with [] => false | _ => existsb (fun k => if list_eq_dec Z.eq_dec k keys then true else false) stored end.
(** A misplaced record repeats the indices of a stored one or, with raw indices, does not
    come after it. *)
Inductive refusal : Set := NotInDomain (r : list Z * list Z) | Misplaced (r : list Z * list Z).
Fixpoint turned_down (doms : list (option (list Z))) (stored : list (list Z)) (rs : list (list Z * list Z)) : list refusal :=
  match rs with
  | [] => []
  | (k, v) :: rs' =>
      if negb (allowed doms k) then NotInDomain (outside doms k, v) :: turned_down doms stored rs'
      else if repeated stored k then Misplaced (k, v) :: turned_down doms stored rs'
      else turned_down doms (k :: stored) rs'
  end.
(** Eleven records are listed.  A record that is not in the domains is listed when an index
    outside has not been listed at its position. *)
Definition new_index (keys : list Z) (l : list (list Z * list Z)) : bool :=
  existsb (fun i => let k := nth i keys 0 in (k <? 0) && negb (existsb (fun r => match nth_error (fst r) i with Some x => x =? k | None => false end) l)) (seq 0 (length keys)).
Definition add_refused (l : list (list Z * list Z)) (x : refusal) : list (list Z * list Z) :=
  if 11 <=? zlen l then l
  else match x with
       | Misplaced r => l ++ [r]
       | NotInDomain r => if new_index (fst r) l then l ++ [r] else l
       end.

Lemma some_unseen_spec : forall keys d l, some_unseen keys d l = true <-> exists i k, nth_error keys i = Some k /\ k < 0 /\ seen_at (d + i) k l = false.
Proof.
  induction keys as [|k keys IH]; intros d l; cbn [some_unseen].
  - split; [discriminate|]. intros ([|i] & k & H & _); discriminate.
  - rewrite Bool.orb_true_iff, Bool.andb_true_iff, Bool.negb_true_iff, Z.ltb_lt, IH. split.
    + intros [[A B]|(i & x & A & B & C)]; [exists O, k; rewrite Nat.add_0_r; auto|]. exists (S i), x. rewrite <- Nat.add_succ_comm. auto.
    + intros ([|i] & x & A & B & C); [left; injection A as ->; rewrite Nat.add_0_r in C; auto|right]. exists i, x. rewrite Nat.add_succ_comm. auto.
Qed.
Lemma new_index_spec : forall keys l, new_index keys l = some_unseen keys 0 l.
Proof.
  intros keys l. apply Bool.eq_iff_eq_true. rewrite some_unseen_spec. unfold new_index. rewrite existsb_exists. split.
  - intros (i & I & B). apply in_seq in I. cbv zeta in B. apply Bool.andb_true_iff in B. destruct B as [B1 B2]. exists i, (nth i keys 0).
    split; [apply nth_error_nth'; lia|]. split; [lia|]. apply Bool.negb_true_iff in B2. exact B2.
  - intros (i & k & A & B & C). exists i. pose proof (nth_error_nth _ _ 0 A) as E. split.
    + apply in_seq. split; [lia|]. cbn [Nat.add]. apply nth_error_Some. rewrite A. discriminate.
    + cbv zeta. rewrite E. apply Bool.andb_true_iff. split; [lia|]. apply Bool.negb_true_iff. exact C.
Qed.
Lemma outside_spec : forall d es doms keys, Forall2 (dom_check d) es doms -> Forall (fun k => 0 <= k) keys -> negate_violating d es keys = outside doms keys.
Proof.
  intros d es doms keys F. revert keys. induction F as [|e dom es doms D F IH]; intros [|k keys] K; cbn [negate_violating outside]; try reflexivity.
  inversion K as [|? ? K1 K2]; subst. rewrite (D k K1), (IH keys K2). f_equal. destruct dom as [l|]; [|reflexivity]. destruct (existsb (Z.eqb k) l); reflexivity.
Qed.
Lemma note_error_list : forall k v e, error_list (note_error k v e) = add_refused (error_list e) (Misplaced (k, v)).
Proof. intros k v e. unfold note_error, error_list, add_refused. destruct (r_list e) as [l|] eqn:E; [destruct (11 <=? zlen l); [rewrite E|]; reflexivity|reflexivity]. Qed.
Lemma note_dom_list : forall k v e, error_list (note_dom k v e) = add_refused (error_list e) (NotInDomain (k, v)).
Proof.
  intros k v e. unfold note_dom, error_list, add_refused. cbn [fst]. destruct (r_list e) as [l|] eqn:E; rewrite new_index_spec.
  - destruct (11 <=? zlen l); [rewrite E; reflexivity|]. destruct (some_unseen k 0 l); [reflexivity|rewrite E; reflexivity].
  - change (11 <=? zlen []) with false. cbn [r_list set_r_list]. destruct (some_unseen k 0 []); reflexivity.
Qed.

Lemma lex_le_refl : forall a, lex_le a a.
Proof. intros a. left. reflexivity. Qed.
Lemma lex_le_antisym : forall a b, lex_le a b -> lex_le b a -> a = b.
Proof. intros a b [A|A] [B|B]; [exact A|exact A|symmetry; exact B|]. exfalso. apply (lex_lt_irrefl a). eapply lex_lt_trans; eassumption. Qed.
(** In a sorted list the record stored last is the only one that can have the same indices. *)
Lemma refused_list : forall d wrb doms, Forall2 (dom_check d) wrb doms -> forall rs prev stored e,
  Forall (fun r : list Z * list Z => Forall (fun k => 0 <= k) (fst r)) rs -> StronglySorted (fun a b : list Z * list Z => lex_le (fst a) (fst b)) rs ->
  (forall p, prev = Some p -> In p stored) -> (forall k, In k stored -> exists p, prev = Some p /\ lex_le k p) -> (forall p r, prev = Some p -> In r rs -> lex_le p (fst r)) ->
  error_list (refused_errs d wrb prev rs e) = fold_left add_refused (turned_down doms stored rs) (error_list e).
Proof.
  intros d wrb doms DC. induction rs as [|[k v] rs IH]; intros prev stored e NN SS P1 P2 P3; [reflexivity|].
  inversion NN as [|? ? N1 N2]; subst. inversion SS as [|? ? S1 S2]; subst. cbn [fst] in *. cbn [refused_errs turned_down].
  rewrite (allowed_spec _ _ _ _ DC N1). destruct (allowed doms k) eqn:AL; cbn [negb].
  - assert (RP : repeated stored k = match prev, k with Some p, _ :: _ => if list_eq_dec Z.eq_dec p k then true else false | _, _ => false end).
    { unfold repeated. destruct k as [|k0 k]; [destruct prev; reflexivity|]. apply Bool.eq_iff_eq_true. rewrite existsb_exists. split.
      - intros (x & I & X). destruct (list_eq_dec Z.eq_dec x (k0 :: k)) as [->|]; [|discriminate]. destruct (P2 _ I) as (p & -> & L).
        pose proof (P3 p _ eq_refl (or_introl eq_refl)) as L2. cbn [fst] in L2. assert (p = k0 :: k) as -> by (apply lex_le_antisym; assumption).
        destruct (list_eq_dec Z.eq_dec (k0 :: k) (k0 :: k)); congruence.
      - destruct prev as [p|]; [|discriminate]. intros X. exists p. split; [apply P1; reflexivity|exact X]. }
    rewrite RP. clear RP.
    assert (NEXT : forall e0, error_list (refused_errs d wrb (Some k) rs e0) = fold_left add_refused (turned_down doms (k :: stored) rs) (error_list e0)).
    { intros e0. apply IH; [exact N2|exact S1| | |].
      - intros p H. injection H as <-. left. reflexivity.
      - intros x [<-|I]; [exists k; split; [reflexivity|apply lex_le_refl]|]. destruct (P2 _ I) as (p & -> & L). exists k. split; [reflexivity|].
        eapply lex_le_trans; [exact L|]. apply (P3 p (k, v)); [reflexivity|left; reflexivity].
      - intros p r H I. injection H as <-. rewrite Forall_forall in S2. apply S2. exact I. }
    destruct prev as [p|]; [|apply NEXT]. destruct k as [|k0 k]; [apply NEXT|]. destruct (list_eq_dec Z.eq_dec p (k0 :: k)) as [->|]; [|apply NEXT].
    cbn [fold_left]. rewrite IH with (stored := stored); [|exact N2|exact S1|exact P1|exact P2|].
    + rewrite note_error_list. reflexivity.
    + intros p r H I. apply (P3 p r); [exact H|right; exact I].
  - cbn [fold_left]. rewrite IH with (stored := stored); [|exact N2|exact S1|exact P1|exact P2|].
    + rewrite note_dom_list, (outside_spec _ _ _ _ DC N1). reflexivity.
    + intros p r H I. apply (P3 p r); [exact H|right; exact I].
Qed.

Lemma settled_listed : forall z sd sq st2 n dim typ wt doms items l, settled z sd sq st2 n dim typ wt doms items -> errors_listed z sd l ->
  exists rs, stable_sort_of items rs /\ errors_listed z sq (fold_left add_refused (turned_down doms [] rs) l).
Proof.
  intros z sd sq st2 n dim typ wt doms items l (d & wrb & rs & SS & DC & IL & _ & _ & _ & _ & _ & ER & M) EL. exists rs. split; [exact SS|].
  pose proof (listed_to z sq ltac:(rewrite M; reflexivity)) as X. rewrite ER in X. apply listed_from in EL. subst l.
  change (error_list (set_r_cnt 0 ?e)) with (error_list e) in X. rewrite (refused_list _ _ doms DC rs None []) in X; [exact X| | | | |].
  - apply Forall_forall. intros r I. rewrite Forall_forall in IL. apply (IL r). destruct SS as (P & _). eapply Permutation_in; [apply Permutation_sym; exact P|exact I].
  - apply SS.
  - discriminate.
  - intros k [].
  - discriminate.
Qed.

(** When a symbol written with labels or user numbers is finished, its records are stored
    or refused in the order of their indices, and the refused ones are listed. *)
Theorem C45_labels_refused : forall z sd sq st2 n dim typ wt doms handed l, str_written z sd sq st2 n dim typ wt doms handed -> errors_listed z sd l ->
  exists items rs, Forall2 (numbered_by z st2) handed items /\ stable_sort_of items rs /\ errors_listed z sq (fold_left add_refused (turned_down doms [] rs) l).
Proof.
  intros z sd sq st2 n dim typ wt doms handed l W EL. destruct (str_settled _ _ _ _ _ _ _ _ _ _ W) as (items & NB & SE).
  destruct (settled_listed _ _ _ _ _ _ _ _ _ _ _ SE EL) as (rs & SS & X). exists items, rs. auto.
Qed.
Theorem C45_user_numbers_refused : forall z sp sd sq st2 n dim typ wt doms handed l, map_written z sp sd sq st2 n dim typ wt doms handed -> errors_listed z sd l ->
  exists items rs, Forall2 (user_numbered z sp) handed items /\ stable_sort_of items rs /\ errors_listed z sq (fold_left add_refused (turned_down doms [] rs) l).
Proof.
  intros z sp sd sq st2 n dim typ wt doms handed l W EL. destruct (map_settled _ _ _ _ _ _ _ _ _ _ _ W) as (items & NB & SE).
  destruct (settled_listed _ _ _ _ _ _ _ _ _ _ _ SE EL) as (rs & SS & X). exists items, rs. auto.
Qed.

(** ** Raw indices *)

Section Raw.
Context (z : zlib).

Lemma raw_begin : forall h base J c id text dim typ uinfo mms sp r s1, jinv z h base J sp -> while_writing c -> raw_start c id text dim typ uinfo mms ->
  exec z c sp = Done (r, s1) -> r_code r = 1 ->
  w_cur (g_wrk s1) = CSym (sym_count (g_dic sp) + 1) /\ w_dim (g_wrk s1) = Z.to_nat dim /\ w_dsize (g_wrk s1) = values_per typ /\
  w_wrb (g_wrk s1) = repeat None (Z.to_nat dim) /\ length mms = Z.to_nat dim.
Proof.
  intros h base J c id text dim typ uinfo mms sp r s1 JI [K O] RS H C.
  destruct (start_idle _ _ _ _ _ _ _ _ _ _ _ _ _ JI (raw_starting _ _ _ _ _ _ _ RS) H C) as (_ & _ & MS & _).
  destruct (init_good z _ _ _ _ JI) as (t & G & W & LG); [apply MS|].
  assert (X : raw_started z h (base ++ t) G mms typ sp r s1 /\ length mms = Z.to_nat dim).
  { destruct RS; cbn [exec] in H; cbn [call_ok] in O.
    - destruct (raw_start_step _ _ _ _ _ _ _ _ _ _ _ _ W O H) as [(-> & _)|(X & _)]; [discriminate|]. split; [exact X|apply repeat_length].
    - destruct (raw_start_bounds_step _ _ _ _ _ _ _ _ _ _ _ _ _ _ W (proj1 O) H) as [(-> & _)|(X & B & L1 & L2)]; [discriminate|]. split; [exact X|].
      rewrite combine_length, !firstn_length. lia. }
  destruct X as [(-> & GI & M0 & EN & AF & [_ P] & D1 & D2 & D3 & D4 & D5 & D6) LM]. unfold WriteInv.phase in P. cbn [gC gR] in P.
  destruct P as [(PM & sy & recs & WC & _) _]. split; [rewrite (wc_cur _ _ _ _ _ _ WC), LG; reflexivity|]. split; [congruence|].
  split; [rewrite <- size_of_spec by apply MS; unfold size_of; rewrite D2; reflexivity|]. split; [congruence|exact LM].
Qed.

Lemma raw_wrb_call : forall c st r st', In (g_mode st) [fw_dom_raw; fw_raw_data] -> while_writing c -> within c = true -> no_domain c = true ->
  exec z c st = Done (r, st') -> w_wrb (g_wrk st') = w_wrb (g_wrk st).
Proof.
  intros c st r st' M [K O] WI ND H. destruct (bystander c && negb (is_raw c))%bool eqn:B.
  - apply Bool.andb_true_iff in B. destruct B as [B1 B2]. apply Bool.negb_true_iff in B2. rewrite (data_wrk z c st r st'); [reflexivity| |exact K|exact B1|exact B2|exact H].
    unfold data_modes. cbn in M |- *. intuition.
  - destruct c; try discriminate K; try discriminate WI; try discriminate ND; try discriminate B; cbn [exec] in H.
    + unfold write_raw in H. assert (EW : g_wrk (enter fw_dom_raw fw_raw_data st) = g_wrk st) by apply enter_env. rewrite <- EW. set (st1 := enter _ _ _) in *. clearbody st1.
      unfold checked, refuse in H. destruct (mode_in _ _); [|injection H as <- <-; rewrite keep_wrk_err; reflexivity]. obind_inv H. destruct x as [ok st2]. injection H as <- <-.
      unfold do_write in E. cbv zeta in E. destruct (_ || _); [discriminate|]. destruct (any_violation _ _ _); [injection E as <- <-; apply (f_equal w_wrb (keep_wrk_err ERR_DOMAINVIOLATION st1))|].
      obind_inv E. destruct x; [injection E as <- <-; apply (f_equal w_wrb (keep_wrk_err ERR_DATADUPLICATE st1))|injection E as <- <-; apply (f_equal w_wrb (keep_wrk_err ERR_RAWNOTSORTED st1))|]. obind_inv E. obind_inv E. obind_inv E. destruct x1 as [n s].
      assert (X : w_wrb (g_wrk x) = w_wrb (g_wrk st1)).
      { destruct (s_write_inv _ _ _ E1) as (? & ? & _ & _ & ->). reflexivity. }
      destruct ((sy_type s =? dt_set) || (sy_type s =? dt_alias)); [|injection E as <- <-; exact X]. destruct (firstn _ vals); [discriminate|]. cbv zeta in E.
      destruct (sy_bits _); [|injection E as <- <-; exact X]. destruct (Nat.eqb _ 1); [|injection E as <- <-; exact X]. obind_inv E. injection E as <- <-. exact X.
    + unfold write_map, enter in H. replace (mode_in (g_mode st) [fw_dom_map]) with false in H by (destruct M as [<-|[<-|[]]]; reflexivity).
      unfold checked, refuse in H. replace (mode_in (g_mode st) [fw_map_data]) with false in H by (destruct M as [<-|[<-|[]]]; reflexivity). injection H as <- <-. rewrite keep_wrk_err. reflexivity.
    + unfold write_str, enter in H. replace (mode_in (g_mode st) [fw_dom_str]) with false in H by (destruct M as [<-|[<-|[]]]; reflexivity).
      unfold checked, refuse in H. replace (mode_in (g_mode st) [fw_str_data]) with false in H by (destruct M as [<-|[<-|[]]]; reflexivity). injection H as <- <-. rewrite keep_wrk_err. reflexivity.
Qed.

Definition in_raw (J : journal) : Prop := exists n dim dsize mms recs ok, j_phase J = JRaw n dim dsize mms recs ok.
Lemma in_raw_step : forall c r J, within c = true -> in_raw J -> in_raw (jstep c r J).
Proof.
  intros c r J W (n & dim & dsize & mms & recs & ok & P). unfold in_raw, jstep. rewrite P. destruct c; try discriminate W; rewrite ?P; eauto 8; destruct (r_code r =? 1); cbn [j_phase]; eauto 8.
Qed.
Lemma in_raw_mode : forall h base J st, jinv z h base J st -> in_raw J -> In (g_mode st) [fw_dom_raw; fw_raw_data].
Proof.
  intros h base J st JI (n & dim & dsize & mms & recs & ok & P). destruct JI as [(t & G & [_ PH] & R)|(L & _)]; [|congruence].
  pose proof (jr_phase _ _ _ R) as Q. rewrite P in Q. destruct Q as (Q & _). unfold WriteInv.phase in PH. rewrite Q in PH. destruct PH as [(M & _) _]. exact M.
Qed.
Lemma raw_wrb_body : forall cs h base J st rs st', jinv z h base J st -> in_raw J -> Forall while_writing cs -> Forall (fun c => within c = true) cs ->
  Forall (fun c => no_domain c = true) cs -> run z cs st = Done (rs, st') -> w_wrb (g_wrk st') = w_wrb (g_wrk st).
Proof.
  induction cs as [|c cs IH]; intros h base J st rs st' JI IR FW WI ND H; [injection H as <- <-; reflexivity|].
  destruct (run_cons _ _ _ _ _ _ H) as (r & s1 & rs' & E & R & ->). inversion FW as [|? ? F1 F2]; subst. inversion WI as [|? ? W1 W2]; subst. inversion ND as [|? ? N1 N2]; subst.
  rewrite (IH _ _ _ _ _ _ (jinv_step z _ _ _ _ _ _ _ JI (proj1 F1) (proj2 F1) E) (in_raw_step _ _ _ W1 IR) F2 W2 N2 R).
  eapply raw_wrb_call; [eapply in_raw_mode; eassumption|eassumption..].
Qed.

Lemma last_is : forall bo dim mms recs bs last, wr_recs bo dim mms recs bs last -> Forall (fun r : srec => length (fst r) = dim) recs -> last = last_keys (repeat INDEX_INITIAL dim) recs.
Proof.
  intros bo dim mms recs bs last W. induction W as [|recs bs last k vs b last' W IH K]; intros F; [reflexivity|]. apply Forall_app in F. destruct F as [F1 F2].
  pose proof (Forall_inv F2) as L. cbn [fst] in L. specialize (IH F1). rewrite last_keys_snoc. 
  apply write_keys_done in K.
  - destruct K as [(-> & -> & _)|[_ ->]]; reflexivity.
  - rewrite L, IH. unfold last_keys. destruct recs as [|r0 recs] using rev_ind; [cbn; rewrite repeat_length; reflexivity|]. rewrite map_app. cbn [List.map]. rewrite last_last.
    apply Forall_app in F1. destruct F1 as [_ F1]. inversion F1. congruence.
Qed.
End Raw.

(** One call in the middle of writing the symbol [n] with raw indices: [s] is the writer
    before it, [s'] after it, and [recs] are the records accepted so far.  [doms] are the
    lists of numbers in the domains. *)
Definition raw_call (z : zlib) (s s' st2 : gst) (n dim typ : Z) (doms : list (option (list Z))) (recs : list (list Z * list Z)) (keys vals : list Z) (r : resp) : Prop :=
  exists name prod compr pre sp c id text uinfo mms dcs b1 b2 r0 rdcs rb1 rb2 sq post st s1,
    in_parts z name prod compr pre sp (c :: (dcs ++ b1) ++ gdxDataWriteRaw keys vals :: b2) (r0 :: (rdcs ++ rb1) ++ r :: rb2) sq post st st2 /\
    raw_start c id text dim typ uinfo mms /\ r_code r0 = 1 /\ exec z c sp = Done (r0, s1) /\ run z (dcs ++ b1) s1 = Done (rdcs ++ rb1, s) /\
    exec z (gdxDataWriteRaw keys vals) s = Done (r, s') /\
    length rb1 = length b1 /\ Forall (fun c => within c = true /\ no_domain c = true) b1 /\
    symbols z sp (n - 1) /\ domain_given z name prod compr sp s1 st2 n dim dcs rdcs doms /\ bounds_okb mms = true /\
    recs = List.map (fun kv => (firstn (Z.to_nat dim) (fst kv), firstn (values_per typ) (snd kv))) (accepted_raw b1 rb1) /\
    Forall (fun kv => inside mms (fst kv) = true) recs.
(** The indices are greater than those of the record accepted last, if there is one; a
    symbol without indices takes any record. *)
Definition follows (dim : Z) (recs : list (list Z * list Z)) (keys : list Z) : Prop :=
  dim = 0 \/ forall r l, recs = l ++ [r] -> lex_lt (fst r) keys.

Section Raw2.
Context (z : zlib).

Lemma nonneg_after_initial : forall ks, Forall (fun k => 0 <= k) ks -> ks = [] \/ lex_lt (repeat INDEX_INITIAL (length ks)) ks.
Proof. intros [|k ks] F; [left; reflexivity|right]. inversion F; subst. cbn. left. unfold INDEX_INITIAL. lia. Qed.

(** The writer before the call. *)
Lemma raw_call_state : forall s s' st2 n dim typ doms recs keys vals r, raw_call z s s' st2 n dim typ doms recs keys vals r ->
  exists sy, w_cur (g_wrk s) = CSym n /\ get_sym (g_dic s) n = Some sy /\ w_dim (g_wrk s) = Z.to_nat dim /\ w_dsize (g_wrk s) = values_per typ /\
    0 <= dim /\ w_cnt (g_wrk s) = zlen recs /\ w_last (g_wrk s) = last (List.map fst recs) (repeat INDEX_INITIAL (Z.to_nat dim)) /\
    length (w_last (g_wrk s)) = Z.to_nat dim /\
    In (g_mode s) [fw_dom_raw; fw_raw_data] /\ Forall2 (dom_check (g_dic s)) (w_wrb (g_wrk s)) doms.
Proof.
  intros s s' st2 n dim typ doms recs keys vals r
    (name & prod & compr & pre & sp & c & id & text & uinfo & mms & dcs & b1 & b2 & r0 & rdcs & rb1 & rb2 & sq & post & st & s1 &
     IP & RS & C & E1 & R1 & E2 & L & WI & SY & DG & BO & -> & IN).
  apply symbols_iff in SY. rewrite Forall_map in IN. cbn [fst] in IN.
  assert (NE : n = sym_count (g_dic sp) + 1) by lia. subst n.
  pose proof IP as (rp & rq & _ & R0 & _ & RO).
  destruct (parts_jinv _ _ _ _ _ _ _ _ _ _ _ _ IP) as (rpre & J0 & WP & JI & FS & _ & _ & _ & _).
  inversion FS as [|? ? FS1 FS']; subst. apply Forall_app in FS'. destruct FS' as [FB FT].
  pose proof (raw_starting _ _ _ _ _ _ _ RS) as ST.
  destruct (raw_begin _ _ _ _ _ _ _ _ _ _ _ _ _ _ JI FS1 RS E1 C) as (B1 & B2 & B3 & B4 & B5).
  pose proof (start_idle _ _ _ _ _ _ _ _ _ _ _ _ _ JI ST E1 C) as (PI & CN & MS & TAB).
  pose proof (jinv_step z _ _ _ _ _ _ _ JI (proj1 FS1) (proj2 FS1) E1) as JI1. 
  assert (STE : jstep c r0 J0 = mkJ (j_tab J0) (j_syms J0 ++ [None]) (JRaw (sym_count (g_dic sp) + 1) (Z.to_nat dim) (size_of typ) mms [] true)).
  { unfold jstep. rewrite PI. destruct RS; unfold j_start, j_raw; rewrite PI; destruct (Z.eqb_spec (r_code r0) 1); try contradiction; rewrite BO, CN; reflexivity. }
  rewrite STE in JI1. set (J1 := mkJ _ _ _) in JI1. assert (P1 : j_phase J1 = JRaw (sym_count (g_dic sp) + 1) (Z.to_nat dim) (size_of typ) mms [] true) by reflexivity.
  assert (N1 : 1 <= sym_count (g_dic sp) + 1 <= zlen (j_syms J1)).
  { unfold J1. cbn [j_syms]. rewrite <- CN. unfold zlen. rewrite app_length. cbn. lia. }
  clearbody J1. clear STE.
  apply Forall_and_inv in WI. destruct WI as [WI1 WI2].
  destruct (given_within _ _ _ _ _ _ _ _ _ _ _ _ DG) as (GW & _ & GL & _ & _).
  assert (AR : accepted_raw (dcs ++ b1) (rdcs ++ rb1) = accepted_raw b1 rb1) by (destruct DG as [(-> & -> & _)|(ids & -> & -> & _)]; reflexivity).
  destruct (raw_segment (dcs ++ b1) (rdcs ++ rb1) J1 _ _ _ _ _ ltac:(rewrite !app_length; congruence) ltac:(apply Forall_app; split; assumption) P1 N1 ltac:(rewrite AR; exact IN)) as (_ & _ & P2).
  rewrite AR in P2. cbn [app] in P2.
  pose proof (jinv_run z _ _ _ _ _ _ _ JI1 FB R1) as JI2. set (J2 := jrun (dcs ++ b1) (rdcs ++ rb1) J1) in *. clearbody J2.
  assert (WW : forall s2, run z b1 s2 = Done (rb1, s) -> run z dcs s1 = Done (rdcs, s2) -> w_wrb (g_wrk s) = w_wrb (g_wrk s2)).
  { intros s2 Q1 Q2. apply Forall_app in FB. destruct FB as [FB1 FB2]. pose proof (jinv_run z _ _ _ _ _ _ _ JI1 FB1 Q2) as JM.
    eapply raw_wrb_body; [exact JM| |exact FB2|exact WI1|exact WI2|exact Q1].
    assert (IR : in_raw J1) by (unfold in_raw; eauto 8). revert IR. clear - GW GL. revert rdcs GL J1. induction GW as [|c cs W GW IH]; intros [|r rs] GL J1 IR; try discriminate; [exact IR..|].
    cbn [jrun]. apply IH; [injection GL as GL; exact GL|]. apply in_raw_step; assumption. }
  pose proof (in_raw_mode _ _ _ _ _ JI2 ltac:(unfold in_raw; eauto 8)) as M.
  destruct JI2 as [(t & G & [_ PH] & R)|(X & _)]; [|congruence].
  pose proof (jr_phase _ _ _ R) as Q. rewrite P2 in Q. destruct Q as (Q & Q1 & Q2 & Q3). unfold WriteInv.phase in PH. rewrite Q in PH. destruct PH as [(_ & sy & recs & WC & GD) _].
  destruct (GD _ eq_refl) as [<- GR]. clear GD.
  assert (TL : run z (gdxDataWriteRaw keys vals :: b2) s = Done (r :: rb2, sq)).
  { destruct (run_cons _ _ _ _ _ _ R0) as (r' & s1' & rs' & X1 & X2 & ER). injection ER as <- <-. rewrite E1 in X1. injection X1 as <-.
    destruct (run_split _ _ _ _ _ _ X2) as (ra & sm & rb & Y1 & Y2 & EE). rewrite R1 in Y1. injection Y1 as <- <-. apply app_inv_head in EE. subst rb. exact Y2. }
  destruct (given_after z _ _ _ _ _ _ _ _ _ _ _ _ _ _ _ _ _ _ _ _ _ _ _ _ _ IP ST C E1 R1 L B1 B2 B4 ltac:(rewrite (wc_cur _ _ _ _ _ _ WC); discriminate) DG WW TL) as [DC _].
  exists sy. split; [apply WC|]. split; [apply WC|]. split; [exact Q1|]. split; [rewrite Q2; apply size_of_spec; apply MS|]. split; [apply MS|].
  pose proof (wc_dim _ _ _ _ _ _ WC) as WD. rewrite Q1 in WD.
  split; [rewrite (wc_cnt _ _ _ _ _ _ WC); unfold zlen; rewrite !map_length; reflexivity|].
  destruct (wc_out _ _ _ _ _ _ WC) as (nrec & bs & ss & _ & WR & _).
  split; [|split; [rewrite (wc_last _ _ _ _ _ _ WC); congruence|split; [exact M|exact DC]]].
  - rewrite (last_is _ _ _ _ _ _ WR).
    + unfold last_keys. rewrite <- WD, !map_map. reflexivity.
    + destruct GR as [_ GR]. eapply Forall_impl; [|exact GR]. intros kv (K & _). apply Forall2_length in K. rewrite <- K, (wc_mms _ _ _ _ _ _ WC). reflexivity.
Qed.

Lemma any_violation_allowed : forall s s' st2 n dim typ doms recs keys vals r, raw_call z s s' st2 n dim typ doms recs keys vals r ->
  Forall (fun k => 0 <= k) (firstn (Z.to_nat dim) keys) -> any_violation (g_dic s) (w_wrb (g_wrk s)) (firstn (Z.to_nat dim) keys) = negb (allowed doms (firstn (Z.to_nat dim) keys)).
Proof.
  intros s s' st2 n dim typ doms recs keys vals r RC NN. destruct (raw_call_state _ _ _ _ _ _ _ _ _ _ _ RC) as (sy & _ & _ & _ & _ & _ & _ & _ & _ & _ & DC).
  apply allowed_spec; assumption.
Qed.
Lemma lex_lt_not : forall a b, lex_lt a b -> lex_lt b a -> False.
Proof. intros a b A B. apply (lex_lt_irrefl a). eapply lex_lt_trans; eassumption. Qed.

(** What one call does. *)
Lemma raw_call_cases : forall s s' st2 n dim typ doms recs keys vals r, raw_call z s s' st2 n dim typ doms recs keys vals r ->
  let ks := firstn (Z.to_nat dim) keys in let vs := firstn (values_per typ) vals in Forall (fun k => 0 <= k) ks ->
  g_mode s' = fw_raw_data /\
  ((r = ret 1 /\ allowed doms ks = true /\ follows dim recs ks /\ g_err s' = g_err s) \/
   (r = ret 0 /\ allowed doms ks = false /\ g_err s' = note_dom (outside doms ks) vs (raise ERR_DOMAINVIOLATION (g_err s))) \/
   (r = ret 0 /\ allowed doms ks = true /\ ~ follows dim recs ks /\ exists e, e <> 0 /\ g_err s' = note_error ks vs (raise e (g_err s)))).
Proof.
  intros s s' st2 n dim typ doms recs keys vals r RC ks vs NN.
  destruct (raw_call_state _ _ _ _ _ _ _ _ _ _ _ RC) as (sy & W1 & W2 & W3 & W4 & D0 & W5 & W6 & W7 & M & DC).
  assert (E : exec z (gdxDataWriteRaw keys vals) s = Done (r, s')).
  { destruct RC as (name & prod & compr & pre & sp & c & id & text & uinfo & mms & dcs & b1 & b2 & r0 & rdcs & rb1 & rb2 & sq & post & st & s1 &
     _ & _ & _ & _ & _ & E2 & _). exact E2. }
  clear RC. cbn [exec] in E. unfold write_raw in E.
  assert (EN : g_wrk (enter fw_dom_raw fw_raw_data s) = g_wrk s /\ g_dic (enter fw_dom_raw fw_raw_data s) = g_dic s /\ g_err (enter fw_dom_raw fw_raw_data s) = g_err s /\
               g_mode (enter fw_dom_raw fw_raw_data s) = fw_raw_data).
  { unfold enter. destruct M as [M|[M|[]]]; rewrite <- M; cbn; repeat split; reflexivity || (symmetry; exact M). }
  destruct EN as (EN1 & EN2 & EN3 & EN4). set (s1 := enter _ _ _) in *. clearbody s1.
  rewrite <- EN1 in W1, W3, W4, W5, W6, W7, DC. rewrite <- EN2 in W2, DC. rewrite <- EN3. clear EN1 EN2 EN3 M s.
  unfold checked in E. rewrite EN4 in E. change (mode_in fw_raw_data [fw_raw_data]) with true in E. cbv iota in E.
  obind_inv E. destruct x as [ok s2]. injection E as <- <-.
  destruct (do_write_cases z n sy keys vals s1 ok s2 W1 W2 E0) as (L1 & L2 & CS). rewrite W3, W4 in CS. rewrite W3 in L1. rewrite W4 in L2. fold ks vs in CS.
  assert (LK : length ks = length (w_last (g_wrk s1))) by (rewrite W7; unfold ks; apply firstn_length_le; exact L1).
  rewrite (allowed_spec _ _ _ _ DC NN) in CS.
  assert (FO : forall l rr, recs = l ++ [rr] -> w_last (g_wrk s1) = fst rr).
  { intros l rr ->. rewrite W6, map_app. cbn [List.map]. apply last_last. }
  destruct CS as [(-> & EO & CS)|(-> & V & b & last & acs & K & _ & WR & _)].
  - split; [destruct EO as (f & -> & _); exact EN4|]. right. pose proof (do_write_refused _ _ _ _ _ E0) as X. cbv zeta in X. rewrite W3, W4 in X. fold ks vs in X.
    rewrite (allowed_spec _ _ _ _ DC NN), (outside_spec _ _ _ _ DC NN) in X. destruct (allowed doms ks) eqn:AL; cbn [negb] in *; [right|left; auto].
    split; [reflexivity|]. split; [reflexivity|]. destruct CS as [CS|CS]; [discriminate|].
    split; [|destruct CS as [CS|CS]; rewrite CS in X; eexists; (split; [|exact X]); discriminate].
    intros FL. destruct CS as [CS|CS]; apply write_keys_done in CS; try exact LK.
    + destruct CS as (K1 & K2 & K3). destruct FL as [->|FL]; [cbn in K2; lia|]. destruct recs as [|rr l] using rev_ind; [cbn in W5; unfold zlen in W5; cbn in W5; lia|].
      specialize (FL rr l eq_refl). rewrite K1, (FO l rr eq_refl) in FL. apply (lex_lt_irrefl _ FL).
    + destruct FL as [->|FL]; [assert (KN : ks = []) by reflexivity; rewrite KN in CS; destruct (w_last (g_wrk s1)); [destruct CS|discriminate W7]|].
      destruct recs as [|rr l] using rev_ind.
      * cbn in W6. rewrite W6 in CS. destruct (nonneg_after_initial ks NN) as [->|X2]; [destruct (repeat _ _); destruct CS|]. rewrite LK, W7 in X2. eapply lex_lt_not; eassumption.
      * rewrite (FO l rr eq_refl) in CS. apply (lex_lt_not _ _ CS). apply (FL rr l eq_refl).
  - split; [rewrite (wr_mode _ _ _ _ _ _ WR); exact EN4|]. left. split; [reflexivity|]. split; [destruct (allowed doms ks); [reflexivity|discriminate V]|].
    split; [|apply WR]. apply write_keys_done in K; [|exact LK]. destruct K as [(K1 & _ & [K2|K2])|(K1 & _)].
    + left. lia.
    + right. intros rr l ->. exfalso. rewrite W5 in K2. unfold zlen in K2. rewrite app_length in K2. cbn in K2. lia.
    + right. intros rr l EQ. rewrite (FO l rr EQ) in K1. exact K1.
Qed.
End Raw2.

(** *** C02: raw records are accepted exactly in strictly increasing order *)

(** A record is stored exactly if it is in the domains and greater than the record stored
    last; one that is refused counts as one error. *)
Theorem C02_accepted_exactly : forall z s s' st2 n dim typ doms recs keys vals r e, raw_call z s s' st2 n dim typ doms recs keys vals r ->
  let ks := firstn (Z.to_nat dim) keys in Forall (fun k => 0 <= k) ks -> errors z s e ->
  (r = ret 1 /\ allowed doms ks = true /\ follows dim recs ks /\ errors z s' e) \/
  (r = ret 0 /\ ~ (allowed doms ks = true /\ follows dim recs ks) /\ errors z s' (e + 1)).
Proof.
  intros z s s' st2 n dim typ doms recs keys vals r e RC ks NN EE. apply errors_iff in EE.
  destruct (raw_call_cases _ _ _ _ _ _ _ _ _ _ _ _ RC NN) as [_ [(-> & A & F & X)|[(-> & A & X)|(-> & A & F & e0 & NZ & X)]]]; fold ks in A, X.
  - left. split; [reflexivity|]. split; [exact A|]. split; [exact F|]. apply errors_iff. congruence.
  - right. split; [reflexivity|]. split; [intros [A' _]; congruence|]. apply errors_iff. rewrite X, note_dom_tot. rewrite <- EE. reflexivity.
  - right. split; [reflexivity|]. split; [intros [_ F']; exact (F F')|]. apply errors_iff. rewrite X, note_error_tot. unfold raise. destruct (Z.eqb_spec e0 0); [contradiction|]. rewrite <- EE. reflexivity.
Qed.

Lemma holds_count : forall z st n dim typ wt recs, holds z st n dim typ wt recs -> dim <> 0 -> exists u t, answers z st (gdxSymbolInfoX n) (ret_is 1 [zlen recs; u] [t]).
Proof.
  intros z st n dim typ wt recs (_ & _ & D & _ & F & tab & k & nm & sy & Q & ZN & SD & _ & ds & ms & nn & bs & la & BL) ND.
  destruct BL as (_ & _ & _ & _ & _ & CN & _).
  destruct (Forall2_znth_l _ _ _ _ _ (rf_tab _ _ _ _ _ Q) ZN) as ((nm' & sy') & ZN' & [(X1 & X2 & X3 & X4 & X5) _]). cbn [snd] in *.
  exists (sy_uinfo sy'), (sy_expl sy'), st. cbn [exec]. unfold symbol_info_x. destruct (Z.eqb_spec n 0) as [->|]; [discriminate ZN|].
  unfold get_sym. rewrite ZN'. cbn [option_map snd]. rewrite <- X2, <- X4, <- CN, SD, zlen_map. destruct (Nat.eqb_spec (Z.to_nat dim) 0); [lia|]. reflexivity.
Qed.
(** The reader's count of records is the number of records accepted. *)
Theorem C02_count_is_accepted : forall z st2 n dim typ wt recs cs rs st3, wrote_raw z st2 n dim typ wt recs -> dim <> 0 -> then_calls z cs rs st2 st3 ->
  exists u t, answers z st3 (gdxSymbolInfoX n) (ret_is 1 [zlen recs; u] [t]).
Proof.
  intros z st2 n dim typ wt recs cs rs st3 W ND TC. destruct (raw_holds _ _ _ _ _ _ _ W) as (H & _). eapply holds_count; [|exact ND]. eapply holds_then; eassumption.
Qed.

(** *** C31, C45: raw records outside the domains, and the list of refused records *)

Theorem C31_raw_indices_are_checked : forall z s s' st2 n dim typ doms recs keys vals r e, raw_call z s s' st2 n dim typ doms recs keys vals r ->
  let ks := firstn (Z.to_nat dim) keys in Forall (fun k => 0 <= k) ks -> errors z s e ->
  (allowed doms ks = false -> r = ret 0 /\ errors z s' (e + 1)) /\
  (allowed doms ks = true -> follows dim recs ks -> r = ret 1 /\ errors z s' e).
Proof.
  intros z s s' st2 n dim typ doms recs keys vals r e RC ks NN EE.
  destruct (C02_accepted_exactly _ _ _ _ _ _ _ _ _ _ _ _ _ RC NN EE) as [(-> & A & F & X)|(-> & A & X)]; fold ks in A; split; intros; auto; try congruence.
  exfalso. apply A. auto.
Qed.
Theorem C45_raw_refused : forall z s s' st2 n dim typ doms recs keys vals r l, raw_call z s s' st2 n dim typ doms recs keys vals r ->
  let ks := firstn (Z.to_nat dim) keys in let vs := firstn (values_per typ) vals in Forall (fun k => 0 <= k) ks -> errors_listed z s l ->
  errors_listed z s' (if r_code r =? 1 then l else if allowed doms ks then add_refused l (Misplaced (ks, vs)) else add_refused l (NotInDomain (outside doms ks, vs))).
Proof.
  intros z s s' st2 n dim typ doms recs keys vals r l RC ks vs NN EL. apply listed_from in EL.
  destruct (raw_call_cases _ _ _ _ _ _ _ _ _ _ _ _ RC NN) as [M C]. pose proof (listed_to z s' ltac:(rewrite M; reflexivity)) as X.
  destruct C as [(-> & A & F & EQ)|[(-> & A & EQ)|(-> & A & F & e0 & NZ & EQ)]]; fold ks vs in A, EQ; rewrite EQ in X; rewrite ?A.
  - rewrite EL in X. exact X.
  - rewrite note_dom_list in X. replace (error_list (raise ERR_DOMAINVIOLATION (g_err s))) with l in X by (rewrite <- EL; reflexivity). exact X.
  - rewrite note_error_list in X. replace (error_list (raise e0 (g_err s))) with l in X by (rewrite <- EL; unfold raise; destruct (e0 =? 0); reflexivity). exact X.
Qed.

(** ** A concrete case *)

(** The set [s] has the elements a and b.  The parameter [p] over [s] and the universe is
    written with labels, the parameter [q] over [s] with raw indices. *)
Definition dc_pre : list call :=
  [gdxDataWriteStrStart (s2z "s") (s2z "a set") 1 dt_set 0; gdxDataWriteStr [s2z "a"] [0]; gdxDataWriteStr [s2z "b"] [0]; gdxDataWriteDone].
Definition dc_start : call := gdxDataWriteStrStart (s2z "p") (s2z "") 2 dt_par 0.
Definition dc_dom : list call := [gdxSymbolSetDomain [s2z "s"; s2z "*"]].
Definition dc_body : list call :=
  [gdxDataWriteStr [s2z "b"; s2z "x"] [dbl_1]; gdxDataWriteStr [s2z "a"; s2z "y"] [dbl_2_5]; gdxDataWriteStr [s2z "b"; s2z "x"] [0];
   gdxDataWriteStr [s2z "c"; s2z "x"] [dbl_1]; gdxErrorCount; gdxDataWriteStr [s2z "c"; s2z "z"] [0]].
Definition dc_start2 : call := gdxDataWriteRawStart (s2z "q") (s2z "") 1 dt_par 0.
Definition dc_dom2 : list call := [gdxSymbolSetDomain [s2z "s"]].
Definition dc_b1 : list call := [gdxDataWriteRaw [1] [dbl_1]; gdxDataWriteRaw [1] [0]].
Definition dc_b2 : list call := [gdxDataWriteRaw [2] [dbl_2_5]; gdxDataWriteDone].
Definition dc_seg : list call := dc_start :: (dc_dom ++ dc_body) ++ [gdxDataWriteDone].
Definition dc_seg2 : list call := dc_start2 :: (dc_dom2 ++ dc_b1) ++ gdxDataWriteRaw [3] [dbl_1] :: dc_b2.
Definition dc_0 : gst := state_of (exec rle_zlib (gdxOpenWriteEx (s2z "d.gdx") (s2z "test") 0) (new_object [])).
Definition dc_sp : gst := state_of (run rle_zlib dc_pre dc_0).
Definition dc_s1 : gst := state_of (exec rle_zlib dc_start dc_sp).
Definition dc_sd : gst := state_of (run rle_zlib (dc_dom ++ dc_body) dc_s1).
Definition dc_sq : gst := state_of (exec rle_zlib gdxDataWriteDone dc_sd).
Definition dc_t1 : gst := state_of (exec rle_zlib dc_start2 dc_sq).
Definition dc_t : gst := state_of (run rle_zlib (dc_dom2 ++ dc_b1) dc_t1).
Definition dc_t' : gst := state_of (exec rle_zlib (gdxDataWriteRaw [3] [dbl_1]) dc_t).
Definition dc_st : gst := state_of (run rle_zlib dc_b2 dc_t').
Definition dc_closed : gst := state_of (exec rle_zlib gdxClose dc_st).
Definition dc_read : gst := state_of (exec rle_zlib (gdxOpenReadEx (s2z "d.gdx") 0) dc_closed).
Definition dc_file : list Z := match disk_get (e_disk (g_env dc_closed)) (s2z "d.gdx") with Some F => F | None => [] end.

Lemma dc_open : forall cs, calls_okb cs = true -> forall rs st, run rle_zlib cs dc_0 = Done (rs, st) -> writes rle_zlib (s2z "d.gdx") (s2z "test") 0 cs rs st.
Proof.
  intros cs OK rs st R. apply writes_made. exists (new_object []), dc_0, (ret_i 1 [0]). split; [vm_compute; reflexivity|]. split; [reflexivity|]. split; [apply str_okb_ok; vm_compute; reflexivity|].
  split; [apply calls_okb_ok; exact OK|exact R].
Qed.
Lemma dc_reopened : reopened rle_zlib (s2z "d.gdx") (s2z "test") 0 (dc_pre ++ dc_seg ++ dc_seg2) (answer_of (run rle_zlib (dc_pre ++ dc_seg ++ dc_seg2) dc_0)) dc_st dc_read.
Proof.
  split; [apply dc_open; vm_compute; reflexivity|].
  split; [vm_compute; reflexivity|]. exists (ret 0), dc_closed, dc_file, dc_closed, 0.
  split; [vm_compute; reflexivity|]. split; [vm_compute; reflexivity|]. split; [apply counters_fit_test; vm_compute; reflexivity|].
  split; [vm_compute; reflexivity|]. split; [split; vm_compute; reflexivity|]. split; [vm_compute; reflexivity|]. split; [reflexivity|].
  vm_compute. reflexivity.
Qed.
Definition dc_rseg : list resp := ret 1 :: ([ret 1] ++ [ret 1; ret 1; ret 1; ret 1; ret 0; ret 1]) ++ [ret 1].
Definition dc_rseg2 : list resp := ret 1 :: ([ret 1] ++ [ret 1; ret 0]) ++ ret 0 :: [ret 1; ret 1].
Lemma dc_parts : in_parts rle_zlib (s2z "d.gdx") (s2z "test") 0 dc_pre dc_sp dc_seg dc_rseg dc_sq dc_seg2 dc_st dc_read.
Proof.
  exists (answer_of (run rle_zlib dc_pre dc_0)), (answer_of (run rle_zlib dc_seg2 dc_sq)).
  split; [apply dc_open; vm_compute; reflexivity|]. split; [vm_compute; reflexivity|]. split; [vm_compute; reflexivity|].
  replace (answer_of (run rle_zlib dc_pre dc_0) ++ dc_rseg ++ answer_of (run rle_zlib dc_seg2 dc_sq)) with (answer_of (run rle_zlib (dc_pre ++ dc_seg ++ dc_seg2) dc_0)) by (vm_compute; reflexivity).
  exact dc_reopened.
Qed.
Lemma dc_parts2 : in_parts rle_zlib (s2z "d.gdx") (s2z "test") 0 (dc_pre ++ dc_seg) dc_sq dc_seg2 dc_rseg2 dc_st [] dc_st dc_read.
Proof.
  exists (answer_of (run rle_zlib (dc_pre ++ dc_seg) dc_0)), [].
  split; [apply dc_open; vm_compute; reflexivity|]. split; [vm_compute; reflexivity|]. split; [reflexivity|].
  replace ((dc_pre ++ dc_seg) ++ dc_seg2 ++ []) with (dc_pre ++ dc_seg ++ dc_seg2) by (vm_compute; reflexivity).
  replace (answer_of (run rle_zlib (dc_pre ++ dc_seg) dc_0) ++ dc_rseg2 ++ []) with (answer_of (run rle_zlib (dc_pre ++ dc_seg ++ dc_seg2) dc_0)) by (vm_compute; reflexivity).
  exact dc_reopened.
Qed.
Lemma dc_members : members_read rle_zlib dc_read 1 [1; 2].
Proof.
  exists [], [], dc_read, [(1, [1], [0]); (1, [2], [0])]. split; [split; [constructor|reflexivity]|]. split; [exists 0; split; [discriminate|ans]|]. split; [|reflexivity].
  exists (state_of (exec rle_zlib (gdxDataReadRawStart 1) dc_read)).
  exists (state_of (run rle_zlib (repeat gdxDataReadRaw 2) (state_of (exec rle_zlib (gdxDataReadRawStart 1) dc_read)))).
  eexists. split; [vm_compute; reflexivity|]. split; [vm_compute; reflexivity|]. vm_compute. reflexivity.
Qed.
Lemma dc_before : set_before rle_zlib (s2z "d.gdx") (s2z "test") 0 dc_sp 1.
Proof.
  exists [], [], dc_0, (gdxDataWriteStrStart (s2z "s") (s2z "a set") 1 dt_set 0), (s2z "s"), (s2z "a set"), 0, [gdxDataWriteStr [s2z "a"] [0]; gdxDataWriteStr [s2z "b"] [0]], (ret 1),
    [ret 1; ret 1], (ret 1), dc_sp, [], [].
  split; [apply dc_open; vm_compute; reflexivity|]. split; [ans|]. split; [apply calls_okb_ok; vm_compute; reflexivity|]. split; [vm_compute; reflexivity|]. split; [reflexivity|].
  split; [exists 0; ans|]. split; [reflexivity|]. split; [reflexivity|]. split; [repeat constructor|]. left. reflexivity.
Qed.
Lemma dc_before2 : set_before rle_zlib (s2z "d.gdx") (s2z "test") 0 dc_sq 1.
Proof.
  exists [], [], dc_0, (gdxDataWriteStrStart (s2z "s") (s2z "a set") 1 dt_set 0), (s2z "s"), (s2z "a set"), 0, [gdxDataWriteStr [s2z "a"] [0]; gdxDataWriteStr [s2z "b"] [0]], (ret 1),
    [ret 1; ret 1], (ret 1), dc_sp, dc_seg, dc_rseg.
  split; [apply dc_open; vm_compute; reflexivity|]. split; [ans|]. split; [apply calls_okb_ok; vm_compute; reflexivity|]. split; [vm_compute; reflexivity|]. split; [vm_compute; reflexivity|].
  split; [exists 0; ans|]. split; [reflexivity|]. split; [reflexivity|]. split; [repeat constructor|]. left. reflexivity.
Qed.
Lemma dc_domain : checked_domain rle_zlib dc_s1 2 (s2z "s") 1.
Proof.
  exists 1, (s2z "s"), dt_set. split; [ans|]. split; [discriminate|]. split; [|split; [discriminate|ans]].
  apply (R_symbol _ _ _ (s2z "s") 1 dt_set); [split; [discriminate|ans]|discriminate].
Qed.
Lemma dc_domain2 : checked_domain rle_zlib dc_t1 3 (s2z "s") 1.
Proof.
  exists 1, (s2z "s"), dt_set. split; [ans|]. split; [discriminate|]. split; [|split; [discriminate|ans]].
  apply (R_symbol _ _ _ (s2z "s") 1 dt_set); [split; [discriminate|ans]|discriminate].
Qed.
Definition dc_handed : list (list str * list Z) :=
  [([s2z "b"; s2z "x"], [dbl_1]); ([s2z "a"; s2z "y"], [dbl_2_5]); ([s2z "b"; s2z "x"], [0]); ([s2z "c"; s2z "x"], [dbl_1]); ([s2z "c"; s2z "z"], [0])].
Lemma dc_written : str_written rle_zlib dc_sd dc_sq dc_read 2 2 dt_par standard_values [Some [1; 2]; None] dc_handed.
Proof.
  exists (s2z "d.gdx"), (s2z "test"), 0, dc_pre, dc_sp, (s2z "p"), (s2z ""), 0, dc_dom, dc_body, (ret 1), [ret 1], [ret 1; ret 1; ret 1; ret 1; ret 0; ret 1], (ret 1), dc_seg2, dc_st, dc_s1.
  split; [exact dc_parts|]. split; [vm_compute; reflexivity|]. split; [vm_compute; reflexivity|]. split; [reflexivity|]. split; [reflexivity|]. split; [repeat constructor|].
  split; [repeat constructor|]. split; [exists 2; ans|]. split; [ans|]. split; [|reflexivity].
  right. exists [s2z "s"; s2z "*"]. split; [reflexivity|]. split; [reflexivity|]. constructor; [|constructor; [|constructor]].
  - exists 1. split; [exact dc_domain|]. split; [exact dc_before|exact dc_members].
  - left. reflexivity.
Qed.
Lemma dc_raw : raw_call rle_zlib dc_t dc_t' dc_read 3 1 dt_par [Some [1; 2]] [([1], [dbl_1])] [3] [dbl_1] (ret 0).
Proof.
  exists (s2z "d.gdx"), (s2z "test"), 0, (dc_pre ++ dc_seg), dc_sq, dc_start2, (s2z "q"), (s2z ""), 0, [(0, INT_MAX)], dc_dom2, dc_b1, dc_b2, (ret 1), [ret 1], [ret 1; ret 0],
    [ret 1; ret 1], dc_st, [], dc_st, dc_t1.
  split; [exact dc_parts2|]. split; [exact (RS_plain (s2z "q") (s2z "") 1 dt_par 0)|]. split; [reflexivity|]. split; [vm_compute; reflexivity|]. split; [vm_compute; reflexivity|].
  split; [vm_compute; reflexivity|]. split; [reflexivity|]. split; [repeat constructor|]. split; [exists 6; ans|]. split; [|split; [reflexivity|split; [reflexivity|repeat constructor]]].
  right. exists [s2z "s"]. split; [reflexivity|]. split; [reflexivity|]. constructor; [|constructor].
  exists 1. split; [exact dc_domain2|]. split; [exact dc_before2|exact dc_members].
Qed.
Lemma dc_nothing : then_calls rle_zlib [] [] dc_read dc_read.
Proof. split; [constructor|reflexivity]. Qed.
Lemma dc_plain : no_numbering rle_zlib dc_read.
Proof. exists 0. split; [discriminate|ans]. Qed.

Example C08_case : exists items recs f l, Forall2 (numbered_by rle_zlib dc_read) dc_handed items /\ sorted_once 2 (in_domains [Some [1; 2]; None] items) recs /\
  translates standard_values standard_values f /\ reads_all_str rle_zlib dc_read 2 l /\ Forall2 (reads_as rle_zlib dc_read) (as_read f None recs) l.
Proof.
  refine (C08_strings_come_back _ _ _ _ _ _ _ _ _ _ [] [] dc_read dc_written _ dc_nothing _ (or_intror dc_plain)).
  - left. discriminate.
  - left. reflexivity.
Qed.
Example C31_case : exists items, Forall2 (numbered_by rle_zlib dc_read) dc_handed items /\
  checked_result rle_zlib dc_sd dc_sq dc_read 2 standard_values standard_values [Some [1; 2]; None] items.
Proof.
  refine (C31_labels_are_checked _ _ _ _ _ _ _ _ _ _ [] [] dc_read dc_written _ dc_nothing _ (or_intror dc_plain)).
  - left. discriminate.
  - left. reflexivity.
Qed.
Example C31_case_raw : errors rle_zlib dc_t' 5.
Proof.
  assert (E : errors rle_zlib dc_t 4) by ans. destruct (C31_raw_indices_are_checked _ _ _ _ _ _ _ _ _ _ _ _ 4 dc_raw) as [X _]; [repeat constructor; discriminate|exact E|].
  apply (X eq_refl).
Qed.
Example C02_case : ret 0 = ret 0 /\ ~ (allowed [Some [1; 2]] [3] = true /\ follows 1 [([1], [dbl_1])] [3]) /\ errors rle_zlib dc_t' 5.
Proof.
  assert (E : errors rle_zlib dc_t 4) by ans. destruct (C02_accepted_exactly _ _ _ _ _ _ _ _ _ _ _ _ 4 dc_raw) as [(X & _)|X]; [repeat constructor; discriminate|exact E|discriminate X|exact X].
Qed.
Example C02_case_count : exists u t, answers rle_zlib rc_read (gdxSymbolInfoX 2) (ret_is 1 [3; u] [t]).
Proof. refine (C02_count_is_accepted _ _ _ _ _ _ _ [] [] _ rc_wrote _ _); [discriminate|]. split; [constructor|reflexivity]. Qed.
Example C45_case : exists items rs, Forall2 (numbered_by rle_zlib dc_read) dc_handed items /\ stable_sort_of items rs /\
  errors_listed rle_zlib dc_sq (fold_left add_refused (turned_down [Some [1; 2]; None] [] rs) []).
Proof. refine (C45_labels_refused _ _ _ _ _ _ _ _ _ _ [] dc_written _). split; [ans|]. intros i r H. rewrite znth_nil in H. discriminate H. Qed.
Example C45_case_list : turned_down [Some [1; 2]; None] [] [([1; 4], [dbl_2_5]); ([2; 3], [dbl_1]); ([2; 3], [0]); ([5; 3], [dbl_1]); ([5; 6], [0])] =
    [Misplaced ([2; 3], [0]); NotInDomain ([-5; 3], [dbl_1]); NotInDomain ([-5; 6], [0])] /\
  errors_listed rle_zlib dc_sq [([2; 3], [0]); ([-5; 3], [dbl_1])].
Proof.
  split; [vm_compute; reflexivity|]. pose proof (listed_to rle_zlib dc_sq ltac:(vm_compute; reflexivity)) as X.
  replace (error_list (g_err dc_sq)) with [([2; 3], [0]); ([-5; 3], [dbl_1])] in X by (vm_compute; reflexivity). exact X.
Qed.
Example C45_case_raw : errors_listed rle_zlib dc_t' [([1], [0]); ([-3], [dbl_1])].
Proof.
  refine (C45_raw_refused _ _ _ _ _ _ _ _ _ _ _ _ [([1], [0])] dc_raw _ _); [repeat constructor; discriminate|].
  pose proof (listed_to rle_zlib dc_t ltac:(vm_compute; reflexivity)) as X. replace (error_list (g_err dc_t)) with [([1], [0])] in X by (vm_compute; reflexivity). exact X.
Qed.

Print Assumptions C02_accepted_exactly.
Print Assumptions C02_count_is_accepted.
Print Assumptions C08_strings_come_back.
Print Assumptions C08_labels_handed_over.
Print Assumptions C08_refused_are_counted.
Print Assumptions C31_labels_are_checked.
Print Assumptions C31_user_numbers_are_checked.
Print Assumptions C31_raw_indices_are_checked.
Print Assumptions C45_labels_refused.
Print Assumptions C45_user_numbers_refused.
Print Assumptions C45_raw_refused.
