(** * Properties of the records read back: C01, C03, C04, C05, C21, C37, C39 *)

From Coq Require Import String.
From Verif Require Import Base Prim Values FloatAcr Records LinkedData StrHash IntMap Strings AStream BufStream State
  FileImage ApiCore ApiFile ApiWrite ApiRead Api FileFacts BlockFacts StreamFacts OpenFacts DicInv WriteInv WriteSteps Journal WriteCalls WriteTrace
  Footprint SessInv FileFlow Sessions Vocab PropErr Reopen ReadFacts ReadRecs ReadLoops Cases PropNames PropMeta PropTexts Segment LabelFacts Contents Wrote.
Open Scope Z_scope.
Open Scope list_scope.

(** ** C01: raw write, raw read *)

(** In the reader's terms: a value [x] comes back as [f x]. *)
Definition translates (wt rt : list Z) (f : Z -> Z) : Prop := forall x, u64_ok x -> is_acronym wt x = false -> f x = seen rt (means wt x).

Lemma round_trip : forall z st2 n dim typ wt recs rcs rrs st3 r s1, wrote z st2 n dim typ wt recs -> some_record dim recs ->
  then_calls z rcs rrs st2 st3 -> no_acronyms wt recs \/ no_numbering z st3 ->
  exec z (gdxDataReadRawStart n) st3 = Done (r, s1) -> r_code r = 1 ->
  exists f, translates wt (reader_values rcs rrs standard_values) f /\ reads_all z st3 n (as_read f None recs).
Proof.
  intros z st2 n dim typ wt recs rcs rrs st3 r s1 W SR TC NA E C. destruct (wrote_holds _ _ _ _ _ _ _ W) as (H & T & _ & _).
  destruct (tabs_then _ _ _ _ _ _ _ TC T) as (t & T3). apply (holds_then _ _ _ _ _ _ _ _ _ _ TC) in H.
  exists (sees st3 wt). split.
  - intros x U A. eapply sees_plain; try eassumption. apply H.
  - eapply raw_back; try eassumption. destruct NA as [NA|NA]; [left; exact NA|right; eapply no_numbering_env; exact NA].
Qed.

(** The symbol is read after any calls [rcs], whenever reading it can be started. *)
Theorem C01_raw_round_trip : forall z st2 n dim typ wt recs rcs rrs st3 r s1, wrote_raw z st2 n dim typ wt recs -> some_record dim recs ->
  then_calls z rcs rrs st2 st3 -> no_acronyms wt recs \/ no_numbering z st3 ->
  exec z (gdxDataReadRawStart n) st3 = Done (r, s1) -> r_code r = 1 ->
  exists f, translates wt (reader_values rcs rrs standard_values) f /\ reads_all z st3 n (as_read f None recs).
Proof. intros z st2 n dim typ wt recs rcs rrs st3 r s1 W. apply round_trip with (typ := typ) (dim := dim). apply wrote_now. left. exact W. Qed.

(** Right after opening, and right after a read has been finished, it can be started. *)
Theorem C01_after_opening : forall z st2 n dim typ wt recs, wrote_raw z st2 n dim typ wt recs -> some_record dim recs ->
  no_acronyms wt recs \/ no_numbering z st2 ->
  exists f, translates wt standard_values f /\ reads_all z st2 n (as_read f None recs).
Proof.
  intros z st2 n dim typ wt recs W SR NA. destruct (raw_holds _ _ _ _ _ _ _ W) as (H & T & M & _).
  exists (sees st2 wt). split.
  - intros x U A. eapply sees_plain; try eassumption. apply H.
  - eapply raw_back_ready; try eassumption. destruct NA as [NA|NA]; [left; exact NA|right; eapply no_numbering_env; exact NA].
Qed.
Lemma done_ready : forall z st st', exec z gdxDataReadDone st = Done (ret 1, st') -> g_mode st' = fr_init.
Proof.
  intros z st st' H. cbn [exec] in H. unfold read_done in H. destruct (data_read_done st) as [[b s]|] eqn:D; [|discriminate]. cbn [obind] in H.
  injection H as Hb <-. destruct b; [|discriminate]. unfold data_read_done in D. cbv zeta in D.
  change (g_mode (upd_wrk _ st)) with (g_mode st) in D. destruct (mode_in (g_mode st) _); cbn [negb] in D; [|discriminate].
  match type of D with obind ?x _ = _ => destruct x end; [|discriminate]. cbn [obind] in D. injection D as <-. reflexivity.
Qed.
Theorem C01_after_reading : forall z st2 n dim typ wt recs rcs rrs st3, wrote_raw z st2 n dim typ wt recs -> some_record dim recs ->
  then_calls z (rcs ++ [gdxDataReadDone]) (rrs ++ [ret 1]) st2 st3 -> no_acronyms wt recs \/ no_numbering z st3 ->
  exists f, translates wt (reader_values rcs rrs standard_values) f /\ reads_all z st3 n (as_read f None recs).
Proof.
  intros z st2 n dim typ wt recs rcs rrs st3 W SR TC NA. destruct (raw_holds _ _ _ _ _ _ _ W) as (H & T & M & _).
  destruct TC as [FA R]. destruct (run_split _ _ _ _ _ _ R) as (ra & sm & rb & R1 & R2 & ER).
  pose proof (run_length _ _ _ _ _ R2) as L2. destruct rb as [|rb [|? ?]]; try discriminate L2. apply app_inj_tail in ER. destruct ER as [<- <-].
  destruct (run_cons _ _ _ _ _ _ R2) as (r' & s' & rs' & E & R3 & ER). injection ER as <- _. cbn in R3. injection R3 as _ ->.
  apply Forall_app in FA. destruct FA as [FA _]. assert (TC : then_calls z rcs rrs st2 sm) by (split; assumption).
  destruct (tabs_then _ _ _ _ _ _ _ TC T) as (t & T3). apply (holds_then _ _ _ _ _ _ _ _ _ _ TC) in H.
  assert (TD : then_calls z [gdxDataReadDone] [ret 1] sm st3) by (split; [constructor; [split; [reflexivity|exact I]|constructor]|exact R2]).
  destruct (tabs_then _ _ _ _ _ _ _ TD T3) as (t' & T4). cbn [reader_values sets] in T4. apply (holds_then _ _ _ _ _ _ _ _ _ _ TD) in H.
  exists (sees st3 wt). split.
  - intros x U A. eapply sees_plain; try eassumption. apply H.
  - eapply raw_back_ready; try eassumption; [destruct NA as [NA|NA]; [left; exact NA|right; eapply no_numbering_env; exact NA]|].
    eapply done_ready. exact E.
Qed.

Lemma defaults_length : forall u, length (def_var u) = 5%nat /\ length (def_equ u) = 5%nat.
Proof.
  intros u. unfold def_var, def_equ. split.
  - match goal with |- context [znth ?l ?i] => destruct (znth l i) as [r|] eqn:E end; [|reflexivity].
    apply znth_In in E. cbn [In] in E. repeat destruct E as [<-|E]; try reflexivity. destruct E.
  - match goal with |- context [znth ?l ?i] => destruct (znth l i) as [r|] eqn:E end; [|reflexivity].
    apply znth_In in E. cbn [In] in E. repeat destruct E as [<-|E]; try reflexivity. destruct E.
Qed.
(** A symbol without indices that has got no record is read as one record, of default
    values. *)
Theorem C01_empty_scalar : forall z st2 n typ wt, wrote_raw z st2 n 0 typ wt [] -> no_numbering z st2 ->
  exists vals, reads_all z st2 n [(0, [], vals)] /\ length vals = values_per typ /\ (typ = dt_set \/ typ = dt_par -> vals = [0]).
Proof.
  intros z st2 n typ wt W NA. destruct (raw_holds _ _ _ _ _ _ _ W) as ((L & G & D & T & F & tab & k & nm & sy & Q & ZN & SD & ST & B) & _ & M & _).
  assert (HI : has_items z F tab k n 0 [(0, [], Default sy)]).
  { right. exists nm, sy, []. split; [exact ZN|]. split; [rewrite ST; unfold dt_alias, dt_equ in *; lia|]. split; [lia|]. split; [exact B|]. split; [symmetry; exact SD|].
    unfold items_of. rewrite SD. reflexivity. }
  assert (QI : quiet [(0, [], Default sy)] st2) by (left; eapply no_numbering_env; exact NA).
  pose proof (items_read z _ _ _ _ _ _ _ Q M HI QI) as R. cbn [List.map as_item fst snd] in R. unfold as_item in R. cbn [fst snd] in R.
  eexists. split; [exact R|]. unfold shows, shown_all, default_record, values_per. rewrite ST. destruct (defaults_length (sy_uinfo sy)) as [DV DE].
  clear - T DV DE. unfold dt_equ in T. assert (typ = 0 \/ typ = 1 \/ typ = 2 \/ typ = 3) as [-> |[-> |[-> | ->]]] by lia.
  - split; [reflexivity|]. intros _. reflexivity.
  - split; [reflexivity|]. intros _. reflexivity.
  - split; [|intros [|]; discriminate].
    match goal with |- length ?l = _ => change l with (List.map (map_default (e_rtab (g_env st2))) (def_var (sy_uinfo sy))) end. rewrite map_length. exact DV.
  - split; [|intros [|]; discriminate].
    match goal with |- length ?l = _ => change l with (List.map (map_default (e_rtab (g_env st2))) (def_equ (sy_uinfo sy))) end. rewrite map_length. exact DE.
Qed.

(** ** The records of a symbol, one by one *)

Lemma as_read_nth : forall f recs prev i k v, nth_error recs i = Some (k, v) ->
  nth_error (as_read f prev recs) i = Some (dim_frst (match i with O => prev | S j => option_map fst (nth_error recs j) end) k, k, List.map f v).
Proof.
  intros f. induction recs as [|[k0 v0] recs IH]; intros prev [|i] k v H; try discriminate.
  - cbn in H. injection H as -> ->. reflexivity.
  - cbn in H. cbn [as_read nth_error]. rewrite (IH _ _ _ _ H). destruct i; reflexivity.
Qed.
Lemma as_read_nth_inv : forall f recs prev i a k v', nth_error (as_read f prev recs) i = Some (a, k, v') -> exists v, nth_error recs i = Some (k, v).
Proof.
  intros f. induction recs as [|[k0 v0] recs IH]; intros prev [|i] a k v' H; try discriminate.
  - cbn in H. injection H as _ <- _. exists v0. reflexivity.
  - cbn in H. eapply IH. exact H.
Qed.

(** The hypotheses under which a raw read [l] of the symbol is considered in what follows;
    the symbol was written in any of the three ways. *)
Definition read_back (z : zlib) (n dim typ : Z) (wt rt : list Z) (recs : list (list Z * list Z)) (l : list (Z * list Z * list Z)) : Prop :=
  exists st2 rcs rrs st3, wrote z st2 n dim typ wt recs /\ some_record dim recs /\ then_calls z rcs rrs st2 st3 /\
    rt = reader_values rcs rrs standard_values /\ (no_acronyms wt recs \/ no_numbering z st3) /\ reads_all z st3 n l.

Lemma read_back_is : forall z n dim typ wt rt recs l, read_back z n dim typ wt rt recs l ->
  length wt = 5%nat /\ NoDup wt /\ length rt = 5%nat /\ Forall (good_rec (Z.to_nat dim)) recs /\ exists f, translates wt rt f /\ l = as_read f None recs.
Proof.
  intros z n dim typ wt rt recs l (st2 & rcs & rrs & st3 & W & SR & TC & -> & NA & R). destruct (wrote_holds _ _ _ _ _ _ _ W) as (H & T & _ & ND & _).
  pose proof R as (s1 & _ & _ & E & _). destruct (round_trip _ _ _ _ _ _ _ _ _ _ _ _ W SR TC NA E eq_refl) as (f & TR & R').
  destruct (tabs_then _ _ _ _ _ _ _ TC T) as (t & _ & L & _). split; [apply H|]. split; [exact ND|]. split; [exact L|]. split; [apply H|].
  exists f. split; [exact TR|]. eapply reads_all_unique; eassumption.
Qed.

(** ** C03: the position of the first change *)

(** [p] is the position, from one, of the first index in which [k'] differs from [k]. *)
Definition first_differs (k k' : list Z) (p : Z) : Prop :=
  1 <= p <= zlen k' /\ firstn (Z.to_nat (p - 1)) k' = firstn (Z.to_nat (p - 1)) k /\ znth k' (p - 1) <> znth k (p - 1).

Lemma change_at_spec : forall k k', length k = length k' -> (change_at k k' = 0 /\ k' = k) \/ first_differs k k' (change_at k k').
Proof.
  induction k as [|x k IH]; intros [|y k'] L; try discriminate; [left; auto|]. cbn [change_at]. destruct (Z.eqb_spec y x) as [->|NE].
  - injection L as L. destruct (IH k' L) as [[E ->]|(R & F & N)].
    + left. rewrite E. auto.
    + right. destruct (Z.eqb_spec (change_at k k') 0); [lia|]. unfold first_differs. rewrite zlen_cons. split; [lia|].
      replace (Z.to_nat (change_at k k' + 1 - 1)) with (S (Z.to_nat (change_at k k' - 1))) by lia. cbn [firstn]. rewrite F. split; [reflexivity|].
      unfold znth in *. destruct (Z.ltb_spec (change_at k k' + 1 - 1) 0); [lia|]. destruct (Z.ltb_spec (change_at k k' - 1) 0); [lia|].
      replace (Z.to_nat (change_at k k' + 1 - 1)) with (S (Z.to_nat (change_at k k' - 1))) by lia. exact N.
  - right. unfold first_differs. rewrite zlen_cons. pose proof (zlen_nonneg k'). split; [lia|]. split; [reflexivity|]. cbn. congruence.
Qed.

(** Zero is only returned for a record with the indices of the one before. *)
Theorem C03_first_change : forall z n dim typ wt rt recs l, read_back z n dim typ wt rt recs l ->
  (forall a k v, nth_error l 0 = Some (a, k, v) -> dim >= 1 -> a = 1) /\
  (forall i a k v a' k' v', nth_error l i = Some (a, k, v) -> nth_error l (S i) = Some (a', k', v') ->
     (k' <> k /\ first_differs k k' a') \/ (k' = k /\ a' = 0)).
Proof.
  intros z n dim typ wt rt recs l RB. destruct (read_back_is _ _ _ _ _ _ _ _ RB) as (_ & _ & _ & G & f & _ & ->).
  rewrite Forall_forall in G. split.
  - intros a k v H D. destruct (as_read_nth_inv _ _ _ _ _ _ _ H) as (v0 & E). rewrite (as_read_nth f _ None _ _ _ E) in H. injection H as <- _.
    apply nth_error_In in E. destruct (G _ E) as (L & _). cbn [fst] in L. destruct k; [cbn in L; lia|reflexivity].
  - intros i a k v a' k' v' H H'. destruct (as_read_nth_inv _ _ _ _ _ _ _ H) as (v0 & E). destruct (as_read_nth_inv _ _ _ _ _ _ _ H') as (v1 & E').
    rewrite (as_read_nth f _ None _ _ _ E') in H'. injection H' as <- _. rewrite E. cbn [option_map fst dim_frst].
    apply nth_error_In in E. apply nth_error_In in E'. destruct (G _ E) as (L & _). destruct (G _ E') as (L' & _). cbn [fst] in L, L'.
    destruct (change_at_spec k k' ltac:(congruence)) as [[C ->]|X]; [right; auto|left]. split; [|exact X].
    intros ->. destruct X as (_ & _ & N). contradiction N; reflexivity.
Qed.

(** ** C04, C05: values *)

Definition ordinary (wt : list Z) (v : Z) : Prop :=
  ~ In v wt /\ v <> minus_zero /\ v <> plus_inf /\ v <> minus_inf /\ is_nan v = false /\ fleb SV_ACR v = false.

Lemma place_none : forall v l, ~ In v l -> place v l = None.
Proof.
  intros v. induction l as [|x l IH]; intros N; [reflexivity|]. cbn. destruct (Z.eqb_spec v x) as [->|]; [contradiction N; left; reflexivity|].
  rewrite IH; [reflexivity|]. intros I. apply N. right. exact I.
Qed.
Lemma place_some : forall l v m, NoDup l -> nth_error l m = Some v -> place v l = Some m.
Proof.
  induction l as [|x l IH]; intros v m ND H; [destruct m; discriminate|]. inversion ND as [|? ? N1 N2]; subst. cbn [place]. destruct m as [|m].
  - cbn in H. injection H as ->. rewrite Z.eqb_refl. reflexivity.
  - cbn in H. destruct (Z.eqb_spec v x) as [->|]; [contradiction N1; eapply nth_error_In; exact H|]. rewrite (IH v m N2 H). reflexivity.
Qed.

Lemma value_at : forall z n dim typ wt rt recs l i k vs j v, read_back z n dim typ wt rt recs l ->
  nth_error recs i = Some (k, vs) -> nth_error vs j = Some v -> is_acronym wt v = false ->
  exists a vs', nth_error l i = Some (a, k, vs') /\ nth_error vs' j = Some (seen rt (means wt v)).
Proof.
  intros z n dim typ wt rt recs l i k vs j v RB E EV A. destruct (read_back_is _ _ _ _ _ _ _ _ RB) as (_ & _ & _ & G & f & TR & ->).
  rewrite (as_read_nth f _ None _ _ _ E). eexists _, _. split; [reflexivity|]. rewrite (map_nth_error f _ _ EV). f_equal. apply TR; [|exact A].
  rewrite Forall_forall in G. destruct (G _ (nth_error_In _ _ E)) as (_ & _ & U). cbn [snd] in U. rewrite Forall_forall in U. apply U. eapply nth_error_In. exact EV.
Qed.

Theorem C04_numbers_survive : forall z n dim typ wt rt recs l i k vs j v, read_back z n dim typ wt rt recs l ->
  nth_error recs i = Some (k, vs) -> nth_error vs j = Some v -> ordinary wt v ->
  exists a vs', nth_error l i = Some (a, k, vs') /\ nth_error vs' j = Some v.
Proof.
  intros z n dim typ wt rt recs l i k vs j v RB E EV (O1 & O2 & O3 & O4 & O5 & O6).
  assert (ME : means wt v = Number v).
  { unfold means. rewrite place_none by exact O1. destruct (Z.eqb_spec v minus_zero); [contradiction|]. destruct (Z.eqb_spec v plus_inf); [contradiction|].
    destruct (Z.eqb_spec v minus_inf); [contradiction|]. rewrite O5. reflexivity. }
  destruct (value_at _ _ _ _ _ _ _ _ _ _ _ _ _ RB E EV) as (a & vs' & H1 & H2); [unfold is_acronym; rewrite ME; exact O6|].
  rewrite ME in H2. eauto.
Qed.

(** The writer's [m]-th special value comes back as the reader's. *)
Theorem C05_special_values_are_translated : forall z n dim typ wt rt recs l i k vs j v m, read_back z n dim typ wt rt recs l ->
  nth_error recs i = Some (k, vs) -> nth_error vs j = Some v -> nth_error wt m = Some v ->
  exists a vs' u, nth_error l i = Some (a, k, vs') /\ nth_error vs' j = Some u /\ nth_error rt m = Some u.
Proof.
  intros z n dim typ wt rt recs l i k vs j v m RB E EV EM. destruct (read_back_is _ _ _ _ _ _ _ _ RB) as (L1 & ND & L2 & _).
  assert (ME : means wt v = Special m) by (unfold means; rewrite (place_some _ _ _ ND EM); reflexivity).
  destruct (value_at _ _ _ _ _ _ _ _ _ _ _ _ _ RB E EV) as (a & vs' & H1 & H2); [unfold is_acronym; rewrite ME; reflexivity|].
  rewrite ME in H2. cbn [seen] in H2. exists a, vs', (nth m rt 0). split; [exact H1|]. split; [exact H2|]. apply nth_error_nth'.
  rewrite L2, <- L1. apply nth_error_Some. congruence.
Qed.
(** The infinities and NaNs of the machine, if they are not special values themselves,
    count as the third, fourth and second special value. *)
Theorem C05_machine_values : forall z n dim typ wt rt recs l i k vs j v, read_back z n dim typ wt rt recs l ->
  nth_error recs i = Some (k, vs) -> nth_error vs j = Some v -> ~ In v wt ->
  (v = plus_inf -> exists a vs', nth_error l i = Some (a, k, vs') /\ nth_error vs' j = nth_error rt 2) /\
  (v = minus_inf -> exists a vs', nth_error l i = Some (a, k, vs') /\ nth_error vs' j = nth_error rt 3) /\
  (is_nan v = true -> exists a vs', nth_error l i = Some (a, k, vs') /\ nth_error vs' j = nth_error rt 1).
Proof.
  intros z n dim typ wt rt recs l i k vs j v RB E EV NI. destruct (read_back_is _ _ _ _ _ _ _ _ RB) as (L1 & ND & L2 & _).
  assert (X : forall m, means wt v = Special m -> (m < 5)%nat -> exists a vs', nth_error l i = Some (a, k, vs') /\ nth_error vs' j = nth_error rt m).
  { intros m ME LM. destruct (value_at _ _ _ _ _ _ _ _ _ _ _ _ _ RB E EV) as (a & vs' & H1 & H2); [unfold is_acronym; rewrite ME; reflexivity|].
    rewrite ME in H2. cbn [seen] in H2. exists a, vs'. split; [exact H1|]. rewrite H2. symmetry. apply nth_error_nth'. lia. }
  unfold means in X. rewrite (place_none _ _ NI) in X. split; [|split].
  - intros ->. apply X; [reflexivity|lia].
  - intros ->. apply X; [reflexivity|lia].
  - intros N. apply X; [|lia]. destruct (Z.eqb_spec v minus_zero) as [->|]; [discriminate N|]. destruct (Z.eqb_spec v plus_inf) as [->|]; [discriminate N|].
    destruct (Z.eqb_spec v minus_inf) as [->|]; [discriminate N|]. rewrite N. reflexivity.
Qed.

(** ** C21: a symbol is read back independently of the rest of its file *)

(** The same records in two files, written and read with the same special values, give the
    same answers, whatever else the two files hold and whatever the two readers did. *)
Theorem C21_independent_of_the_rest : forall z n dim typ n' dim' typ' wt rt recs l l',
  read_back z n dim typ wt rt recs l -> read_back z n' dim' typ' wt rt recs l' -> no_acronyms wt recs -> l = l'.
Proof.
  intros z n dim typ n' dim' typ' wt rt recs l l' A B NA. destruct (read_back_is _ _ _ _ _ _ _ _ A) as (_ & _ & _ & G & f & F & ->).
  destruct (read_back_is _ _ _ _ _ _ _ _ B) as (_ & _ & _ & _ & g & F' & ->). clear A B.
  assert (X : forall k v, In (k, v) recs -> List.map f v = List.map g v).
  { intros k v I. apply map_ext_in. intros x Ix. unfold no_acronyms in NA. rewrite Forall_forall in G, NA. destruct (G _ I) as (_ & _ & U). pose proof (NA _ I) as N. cbn [snd] in *.
    rewrite Forall_forall in U, N. rewrite F, F'; auto. }
  clear - X. generalize (@None (list Z)). induction recs as [|[k v] recs IH]; intros o; [reflexivity|]. cbn [as_read].
  rewrite (X k v) by (left; reflexivity). f_equal. apply IH. intros k' v' I. apply (X k'). right. exact I.
Qed.

(** ** C37: callbacks *)

(** In any object, whatever file it reads. *)
Definition as_called (t : Z * list Z * list Z) : list Z * list Z * Z := (snd (fst t), snd t, fst (fst t)).
Definition until {A} (stop : option nat) (l : list A) : list A := match stop with None => l | Some k => firstn (S k) l end.

Lemma read_raw_step : forall z s t s', exec z gdxDataReadRaw s = Done (raw_resp t, s') ->
  g_mode s = fr_raw_data /\ do_read z s = Done (Some (fst (fst t), snd t), s') /\ cur_keys s' = snd (fst t).
Proof.
  intros z s [[a k] v] s' H. cbn [exec] in H. unfold read_raw, checked in H. destruct (mode_in (g_mode s) [fr_raw_data]) eqn:M; cbn [negb] in H; [|discriminate].
  split; [destruct (g_mode s); try discriminate M; reflexivity|]. destruct (do_read z s) as [[[[a' v']|] s1]|]; cbn [obind] in H; [| |discriminate].
  - unfold ret_iv, raw_resp in H. cbn [fst snd] in *. unfold ret_iv in H. injection H as -> <- -> <-. auto.
  - destruct (data_read_done s1) as [[b s2]|]; [|discriminate]. discriminate.
Qed.
Lemma read_raw_end : forall z s s', exec z gdxDataReadRaw s = Done (ret 0, s') -> g_mode s = fr_raw_data -> exists s1, do_read z s = Done (None, s1).
Proof.
  intros z s s' H M. cbn [exec] in H. unfold read_raw, checked in H. rewrite M in H. change (mode_in fr_raw_data [fr_raw_data]) with true in H. cbn [negb] in H.
  destruct (do_read z s) as [[[[a' v']|] s1]|]; cbn [obind] in H; [discriminate|eauto|discriminate].
Qed.
(** What reading a record leaves alone. *)
Definition same_read (a b : gst) : Prop := g_mode b = g_mode a /\ w_dim (g_wrk b) = w_dim (g_wrk a) /\ d_uels (g_dic b) = d_uels (g_dic a).
Lemma same_read_refl : forall a, same_read a a.
Proof. intros a. repeat split. Qed.
Lemma same_read_trans : forall a b c, same_read a b -> same_read b c -> same_read a c.
Proof. intros a b c (A1 & A2 & A3) (B1 & B2 & B3). repeat split; congruence. Qed.
Lemma s_parse_o_same : forall {A} z (p : list Z -> outcome (A * list Z)) st a s1, s_parse_o z p st = Done (a, s1) -> same_read st s1.
Proof.
  intros A z p st a s1 H. unfold s_parse_o, s_parse in H. destruct (f_strm (g_fil st)) as [s|]; [|discriminate]. cbv zeta in H.
  destruct (as_view z _); [|discriminate]. destruct (p _) as [[x y]|]; [|discriminate]. injection H as _ <-. repeat split.
Qed.
Lemma read_value_same : forall v st x s1, read_value v st = Done (x, s1) -> same_read st s1.
Proof.
  intros [m|d] st x s1 H; cbn [read_value] in H; [injection H as _ <-; apply same_read_refl|].
  destruct (fleb SV_ACR d); [|injection H as _ <-; apply same_read_refl]. unfold acro_remap in H. cbv zeta in H.
  destruct (dblInfo d); try (injection H as _ <-; apply same_read_refl). destruct (e_acrnan (g_env st)); [injection H as _ <-; apply same_read_refl|].
  destruct (d_round _); [|discriminate]. destruct (_ <? 0).
  - destruct (_ <=? 0); injection H as _ <-; repeat split.
  - destruct (znth _ _); [|discriminate]. destruct (ac_rmap _ <=? 0); [destruct (_ <=? 0)|]; injection H as _ <-; repeat split.
Qed.
Lemma read_values_same : forall vs st x s1, read_values vs st = Done (x, s1) -> same_read st s1.
Proof.
  induction vs as [|v vs IH]; intros st x s1 H; cbn [read_values] in H; [injection H as _ <-; apply same_read_refl|].
  destruct (read_value v st) as [[y s]|] eqn:E; [|discriminate]. cbn [obind] in H. destruct (read_values vs s) as [[ys s2]|] eqn:E2; [|discriminate].
  cbn [obind] in H. injection H as _ <-. eapply same_read_trans; [eapply read_value_same; exact E|eapply IH; exact E2].
Qed.
Lemma do_read_same : forall z s r s1, do_read z s = Done (r, s1) -> same_read s s1.
Proof.
  intros z s r s1 H. unfold do_read in H. cbv zeta in H. destruct (w_univ (g_wrk s)).
  - destruct (_ <=? _); injection H as _ <-; repeat split.
  - destruct (cur_sym s) as [[n sy]|]; [|discriminate]. cbn [obind] in H. destruct (sy_scalar sy).
    + destruct (default_record _ _); [|discriminate]. injection H as _ <-. unfold upd_dic, upd, upd_sym, same_read. destruct (znth _ _); auto.
    + destruct (negb _); [discriminate|]. destruct (s_parse_o z _ s) as [[o s2]|] eqn:P; [|discriminate]. cbn [obind] in H. apply s_parse_o_same in P.
      destruct o as [[[af la] vs]|]; [|injection H as _ <-; exact P].
      destruct (read_values vs _) as [[vals s3]|] eqn:RV; [|discriminate]. cbn [obind] in H. destruct (fix_text _ _ _) as [v2|]; [|discriminate].
      cbn [obind] in H. injection H as _ <-. apply read_values_same in RV. eapply same_read_trans; [exact P|exact RV].
Qed.
Lemma do_read_mode : forall z s r s1, do_read z s = Done (r, s1) -> g_mode s1 = g_mode s.
Proof. intros z s r s1 H. apply (do_read_same _ _ _ _ H). Qed.

Lemma loop_agrees : forall z want l s s2 s3 fuel stop acc cs s', g_mode s = fr_raw_data ->
  run z (repeat gdxDataReadRaw (length l)) s = Done (List.map raw_resp l, s2) -> exec z gdxDataReadRaw s2 = Done (ret 0, s3) ->
  read_loop z fuel want stop acc s = Done (cs, s') ->
  cs = acc ++ until stop (filter (fun c => want (fst (fst c))) (List.map as_called l)).
Proof.
  intros z want. induction l as [|t l IH]; intros s s2 s3 [|fuel] stop acc cs s' M R E H; cbn [read_loop] in H; try discriminate H.
  - cbn in R. injection R as <-. destruct (read_raw_end _ _ _ E M) as (s1 & D). rewrite D in H. cbn [obind] in H. injection H as <- _.
    cbn. destruct stop; cbn; rewrite app_nil_r; reflexivity.
  - cbn [length repeat List.map] in R. destruct (run_cons _ _ _ _ _ _ R) as (r & s1 & rs & E1 & R1 & ER). injection ER as <- <-.
    destruct (read_raw_step _ _ _ _ E1) as (_ & D & CK). rewrite D in H. cbn [obind] in H. pose proof (do_read_mode _ _ _ _ D) as M1. rewrite M in M1.
    destruct t as [[a k] v]. cbn [fst snd] in *. rewrite CK in H. cbn [List.map filter as_called fst snd]. destruct (want k).
    + destruct stop as [[|j]|].
      * injection H as <- _. reflexivity.
      * rewrite (IH _ _ _ _ _ _ _ _ M1 R1 E H), <- app_assoc. reflexivity.
      * rewrite (IH _ _ _ _ _ _ _ _ M1 R1 E H), <- app_assoc. reflexivity.
    + rewrite (IH _ _ _ _ _ _ _ _ M1 R1 E H). reflexivity.
Qed.

Lemma prepare_mode : forall z n doms m st c s, prepare_symbol_read z n doms m st = Done (c, s) -> 0 <= c -> mode_in m [fr_map_data] = false -> g_mode s = m.
Proof.
  intros z n doms m st c s H C M. unfold prepare_symbol_read in H. rewrite M in H.
  match type of H with obind ?x _ = _ => destruct x as [st1|]; [|discriminate] end. cbn [obind] in H. cbv zeta in H.
  repeat match type of H with
  | Done (-1, _) = _ => injection H as <- _; lia
  | Done (_, set_g_mode m _) = _ => injection H as _ <-; reflexivity
  | UB = _ => discriminate H
  | obind ?x _ = _ => destruct x as [?|]; [|discriminate H]; cbn [obind] in H
  | (if ?b then _ else _) = _ => destruct b
  | (let '(_, _) := ?p in _) = _ => destruct p
  | match ?x with Some _ => _ | None => _ end = _ => destruct x
  end.
Qed.
Lemma fast_start : forall z st n l s2 s3 s1, exec z (gdxDataReadRawStart n) st = Done (ret_i 1 [zlen l], s1) ->
  run z (repeat gdxDataReadRaw (length l)) s1 = Done (List.map raw_resp l, s2) -> exec z gdxDataReadRaw s2 = Done (ret 0, s3) ->
  prepare_symbol_read z n unmapped fr_raw_data st = Done (zlen l, s1).
Proof.
  intros z st n l s2 s3 s1 E _ _. cbn [exec] in E. unfold read_raw_start, read_start in E.
  destruct (prepare_symbol_read z n unmapped fr_raw_data st) as [[c s]|]; [|discriminate]. cbn [obind] in E. injection E as _ -> ->. reflexivity.
Qed.

(** gdxDataReadRawFastEx hands over the records that gdxDataReadRaw returns, in that
    order, up to the one for which the callback says stop; gdxDataReadRawFast all of
    them. *)
Theorem C37_fast_ex_agrees : forall z st n l stop r st', reads_all z st n l -> exec z (gdxDataReadRawFastEx n stop) st = Done (r, st') ->
  r = mkResp 1 [zlen l] [] [] (until stop (List.map as_called l)).
Proof.
  intros z st n l stop r st' (s1 & s2 & s3 & E1 & E2 & E3) H. cbn [exec] in H. unfold read_raw_fast_ex in H.
  rewrite (fast_start _ _ _ _ _ _ _ E1 E2 E3) in H. cbn [obind] in H.
  destruct (read_loop z _ _ stop [] s1) as [[cs s]|] eqn:L; [|discriminate]. cbn [obind] in H.
  destruct (data_read_done s) as [[b s']|]; [|discriminate]. cbn [obind] in H. injection H as <- _.
  assert (M : g_mode s1 = fr_raw_data).
  { destruct l as [|t l]; cbn [length repeat List.map] in E2.
    - cbn in E2. injection E2 as <-. clear - E1. cbn [exec] in E1. unfold read_raw_start, read_start in E1.
      destruct (prepare_symbol_read z n unmapped fr_raw_data st) as [[c s]|] eqn:P; [|discriminate]. cbn [obind] in E1. injection E1 as _ -> ->.
      eapply prepare_mode; [exact P|unfold zlen; cbn; lia|reflexivity].
    - destruct (run_cons _ _ _ _ _ _ E2) as (r & sa & rs & X & _ & ER). injection ER as <- _. apply (read_raw_step _ _ _ _ X). }
  rewrite (loop_agrees _ _ _ _ _ _ _ _ _ _ _ M E2 E3 L). cbn [app].
  assert (FT : forall l : list (list Z * list Z * Z), filter (fun _ => true) l = l) by (induction l0 as [|? ? IH]; cbn; [|rewrite IH]; reflexivity). rewrite FT.
  destruct (Z.leb_spec 0 (zlen l)); [reflexivity|]. pose proof (zlen_nonneg l). lia.
Qed.
Lemma raw_mode : forall z st n l s1 s2, exec z (gdxDataReadRawStart n) st = Done (ret_i 1 [zlen l], s1) ->
  run z (repeat gdxDataReadRaw (length l)) s1 = Done (List.map raw_resp l, s2) -> g_mode s1 = fr_raw_data.
Proof.
  intros z st n l s1 s2 E1 _. cbn [exec] in E1. unfold read_raw_start, read_start in E1.
  destruct (prepare_symbol_read z n unmapped fr_raw_data st) as [[c s]|] eqn:P; [|discriminate]. cbn [obind] in E1. injection E1 as _ -> ->.
  eapply prepare_mode; [exact P|apply zlen_nonneg|reflexivity].
Qed.
Lemma filter_all : forall {A} (l : list A), filter (fun _ => true) l = l.
Proof. intros A. induction l as [|? ? IH]; cbn; [|rewrite IH]; reflexivity. Qed.
Theorem C37_fast_agrees : forall z st n l r st', reads_all z st n l -> exec z (gdxDataReadRawFast n) st = Done (r, st') ->
  r = mkResp 1 [zlen l] [] [] (List.map (fun t => (snd (fst t), snd t, 0)) l).
Proof.
  intros z st n l r st' (s1 & s2 & s3 & E1 & E2 & E3) H. cbn [exec] in H. unfold read_raw_fast in H.
  rewrite (fast_start _ _ _ _ _ _ _ E1 E2 E3) in H. cbn [obind] in H.
  destruct (read_loop z _ _ None [] s1) as [[cs s]|] eqn:L; [|discriminate]. cbn [obind] in H.
  destruct (data_read_done s) as [[b s']|]; [|discriminate]. cbn [obind] in H. injection H as <- _.
  rewrite (loop_agrees _ _ _ _ _ _ _ _ _ _ _ (raw_mode _ _ _ _ _ _ E1 E2) E2 E3 L). cbn [app until]. rewrite filter_all, map_map.
  destruct (Z.leb_spec 0 (zlen l)); [reflexivity|]. pose proof (zlen_nonneg l). lia.
Qed.

(** A filter text for every index: an empty one takes every index, another one the index
    that belongs to the label with this text, up to case. *)
Definition distinct_labels (z : zlib) (st : gst) : Prop := forall i j s t, label z st i s -> label z st j t -> upper s = upper t -> i = j.
Definition passes (z : zlib) (st : gst) (fs : list str) (keys : list Z) : Prop :=
  forall j s k, nth_error fs j = Some s -> nth_error keys j = Some k -> s = [] \/ exists t, label z st k t /\ upper t = upper s.
Definition unknown_label (z : zlib) (st : gst) (s : str) : Prop := s <> [] /\ forall k t, label z st k t -> upper t <> upper s.

Lemma find_label : forall z st s k, distinct_labels z st -> 0 <= uel_find (g_dic st) s -> (k = uel_find (g_dic st) s <-> exists t, label z st k t /\ upper t = upper s).
Proof.
  intros z st s k DL K. unfold uel_find in *. destruct (sl_find true (d_uels (g_dic st)) s) as [m|] eqn:E; [|lia].
  destruct (sl_find_Some _ _ _ _ E) as ([t u] & ZN & ST). cbn [fst] in ST. apply same_text_spec in ST.
  assert (LB : label z st (m + 1) t) by (apply label_iff; unfold uel_text; replace (m + 1 - 1) with m by lia; rewrite ZN; reflexivity).
  split.
  - intros ->. exists t. split; [exact LB|exact ST].
  - intros (t' & L' & U'). eapply DL; [exact L'|exact LB|]. cbn in ST. congruence.
Qed.
Lemma find_no_label : forall z st s, s <> [] -> uel_find (g_dic st) s < 0 -> unknown_label z st s.
Proof.
  intros z st s N K. split; [exact N|]. intros k t L. apply label_iff in L. unfold uel_find, uel_text in *.
  destruct (sl_find true (d_uels (g_dic st)) s) as [m|] eqn:E; [pose proof (sl_find_range _ _ _ _ E); lia|].
  destruct (znth (d_uels (g_dic st)) (k - 1)) as [[t' u]|] eqn:ZN; [|discriminate]. injection L as <-.
  pose proof (proj1 (sl_find_none _ _ _) E) as X. intros U.
  rewrite Forall_forall in X. specialize (X _ (znth_In _ _ _ ZN)). cbn [fst] in X.
  assert (Y : same_text true t' s = true) by (apply same_text_spec; exact U). congruence.
Qed.
Lemma fits_passes : forall z st, distinct_labels z st -> forall fs keys, all_known (filter_nrs (g_dic st) fs) = true ->
  (fits_filter (filter_nrs (g_dic st) fs) keys = true <-> passes z st fs keys).
Proof.
  intros z st DL. induction fs as [|s fs IH]; intros [|k keys] AK.
  - split; [intros _ [|j]; discriminate|reflexivity].
  - split; [intros _ [|j]; discriminate|reflexivity].
  - split; [intros _ [|j] ? ? _; discriminate|]. intros _. cbn [filter_nrs List.map fits_filter]. destruct (empty_str s); reflexivity.
  - cbn [filter_nrs List.map all_known forallb] in AK. apply Bool.andb_true_iff in AK. destruct AK as [A1 A2]. specialize (IH keys A2).
    assert (X : passes z st (s :: fs) (k :: keys) <-> (s = [] \/ exists t, label z st k t /\ upper t = upper s) /\ passes z st fs keys).
    { split.
      - intros P. split; [apply (P O s k); reflexivity|]. intros j. apply (P (S j)).
      - intros [P Q] [|j] s' k' E1 E2; [|eapply Q; eassumption]. cbn in E1, E2. injection E1 as <-. injection E2 as <-. exact P. }
    rewrite X, <- IH. cbn [filter_nrs List.map fits_filter]. destruct s as [|ch s]; cbn [empty_str] in *.
    + fold (filter_nrs (g_dic st) fs). split; [intros ->; auto|intros [_ ->]; reflexivity].
    + apply Z.leb_le in A1. fold (filter_nrs (g_dic st) fs). rewrite Bool.andb_true_iff, Z.eqb_eq, (find_label z st (ch :: s) k DL A1). split.
      * intros [P Q]. auto.
      * intros [[P|P] Q]; [discriminate|auto].
Qed.
Lemma unknown_filter : forall z st fs, all_known (filter_nrs (g_dic st) fs) = false <-> Exists (unknown_label z st) fs.
Proof.
  intros z st. induction fs as [|s fs IH]; [split; [discriminate|intros X; inversion X]|].
  rewrite Exists_cons, <- IH. cbn [filter_nrs List.map all_known forallb]. fold (filter_nrs (g_dic st) fs). fold (all_known (filter_nrs (g_dic st) fs)).
  rewrite Bool.andb_false_iff. apply or_iff_compat_r. destruct s as [|ch s]; cbn [empty_str].
  - split; [discriminate|]. intros [X _]. contradiction X; reflexivity.
  - rewrite Z.leb_gt. split; [intros H; apply find_no_label; [discriminate|exact H]|]. intros [_ U]. unfold uel_find.
    destruct (sl_find true (d_uels (g_dic st)) (ch :: s)) as [m|] eqn:E; [|lia]. destruct (sl_find_Some _ _ _ _ E) as ([t u] & ZN & SM). cbn [fst] in SM.
    apply same_text_spec in SM. exfalso. apply (U (m + 1) t); [|exact SM]. apply label_iff. unfold uel_text. replace (m + 1 - 1) with m by lia. rewrite ZN. reflexivity.
Qed.

Lemma raw_keys_short : forall z l s s2, run z (repeat gdxDataReadRaw (length l)) s = Done (List.map raw_resp l, s2) ->
  Forall (fun t => (length (snd (fst t)) <= w_dim (g_wrk s))%nat) l.
Proof.
  intros z. induction l as [|t l IH]; intros s s2 R; [constructor|]. cbn [length repeat List.map] in R.
  destruct (run_cons _ _ _ _ _ _ R) as (r & s1 & rs & E1 & R1 & ER). injection ER as <- <-.
  destruct (read_raw_step _ _ _ _ E1) as (_ & D & CK). pose proof (do_read_same _ _ _ _ D) as (_ & W & _). constructor.
  - rewrite <- CK. unfold cur_keys. rewrite W, firstn_length. lia.
  - rewrite <- W. eapply IH. exact R1.
Qed.
Lemma nth_error_firstn : forall {A} (l : list A) n j, nth_error (firstn n l) j = if (j <? n)%nat then nth_error l j else None.
Proof.
  intros A. induction l as [|x l IH]; intros [|n] [|j]; cbn [firstn nth_error]; try reflexivity.
  - destruct (_ <? _)%nat; reflexivity.
  - rewrite IH. change (S j <? S n)%nat with (j <? n)%nat. reflexivity.
Qed.
Lemma filter_map_swap : forall {A B} (f : A -> B) p (l : list A), filter p (List.map f l) = List.map f (filter (fun x => p (f x)) l).
Proof. intros A B f p. induction l as [|x l IH]; cbn; [reflexivity|]. destruct (p (f x)); cbn; rewrite IH; reflexivity. Qed.
Theorem C37_filt_agrees : forall z st n l fs stop r st', reads_all z st n l -> distinct_labels z st ->
  exec z (gdxDataReadRawFastFilt n fs stop) st = Done (r, st') ->
  exists d, (d <= length fs)%nat /\ Forall (fun t => (length (snd (fst t)) <= d)%nat) l /\
    ((Exists (unknown_label z st) (firstn d fs) /\ r = ret 0) \/
     (~ Exists (unknown_label z st) (firstn d fs) /\ exists p, (forall t, In t l -> (p t = true <-> passes z st fs (snd (fst t)))) /\
        r = mkResp 1 [] [] [] (until stop (List.map (fun t => (snd (fst t), snd t, 0)) (filter p l))))).
Proof.
  intros z st n l fs stop r st' (s1 & s2 & s3 & E1 & E2 & E3) DL H. cbn [exec] in H. unfold read_raw_fast_filt in H.
  rewrite (fast_start _ _ _ _ _ _ _ E1 E2 E3) in H. cbn [obind] in H. destruct (Z.leb_spec 0 (zlen l)) as [_|]; [|pose proof (zlen_nonneg l); lia]. cbv zeta in H.
  destruct (Nat.ltb_spec (length fs) (w_dim (g_wrk s1))) as [|LF]; [discriminate|].
  exists (w_dim (g_wrk s1)). split; [exact LF|]. pose proof (raw_keys_short _ _ _ _ E2) as KL. split; [exact KL|].
  assert (TX : label_texts s1 = label_texts st).
  { eapply (labels_keep z [gdxDataReadRawStart n]); [|repeat constructor]. split; [reflexivity|]. split; [repeat constructor|].
    exists [ret_i 1 [zlen l]]. cbn [run]. rewrite E1. reflexivity. }
  assert (NR : filter_nrs (g_dic s1) (firstn (w_dim (g_wrk s1)) fs) = filter_nrs (g_dic st) (firstn (w_dim (g_wrk s1)) fs)).
  { unfold filter_nrs. apply map_ext. intros s. destruct (empty_str s); [reflexivity|]. f_equal. apply find_texts. exact TX. }
  rewrite NR in H. clear NR. set (gs := firstn (w_dim (g_wrk s1)) fs) in *. destruct (all_known (filter_nrs (g_dic st) gs)) eqn:AK.
  - right. split; [intros X; apply (unknown_filter z st) in X; congruence|].
    destruct (read_loop z _ _ stop [] s1) as [[cs s]|] eqn:L; [|discriminate]. cbn [obind] in H.
    destruct (data_read_done s) as [[b s']|]; [|discriminate]. cbn [obind] in H. injection H as <- _.
    rewrite (loop_agrees _ _ _ _ _ _ _ _ _ _ _ (raw_mode _ _ _ _ _ _ E1 E2) E2 E3 L). cbn [app].
    exists (fun t => fits_filter (filter_nrs (g_dic st) gs) (snd (fst t))). split.
    + intros t I. rewrite (fits_passes z st DL gs _ AK). rewrite Forall_forall in KL. specialize (KL t I). unfold gs. split; intros P j fj kj J1 J2.
      * apply (P j fj kj); [|exact J2]. rewrite nth_error_firstn. assert (j < length (snd (fst t)))%nat by (apply nth_error_Some; congruence).
        destruct (Nat.ltb_spec j (w_dim (g_wrk s1))); [exact J1|lia].
      * rewrite nth_error_firstn in J1. destruct (Nat.ltb_spec j (w_dim (g_wrk s1))); [|discriminate]. apply (P j fj kj); assumption.
    + unfold ret. f_equal. rewrite filter_map_swap. destruct stop; cbn [until]; rewrite ?firstn_map, map_map; reflexivity.
  - left. split; [apply (unknown_filter z st); exact AK|]. cbn [obind] in H. destruct (data_read_done s1) as [[b s']|]; [|discriminate]. injection H as <- _. reflexivity.
Qed.

(** In a file written with this library the callback reads come to an end. *)
Theorem C37_callback_reads_end : forall z st2 n dim typ wt recs, wrote z st2 n dim typ wt recs -> some_record dim recs ->
  no_acronyms wt recs \/ no_numbering z st2 ->
  (exists r st', exec z (gdxDataReadRawFast n) st2 = Done (r, st')) /\
  (forall stop, exists r st', exec z (gdxDataReadRawFastEx n stop) st2 = Done (r, st')) /\
  (forall fs stop, dim <= zlen fs -> exists r st', exec z (gdxDataReadRawFastFilt n fs stop) st2 = Done (r, st')).
Proof.
  intros z st2 n dim typ wt recs W SR NA. destruct (wrote_holds _ _ _ _ _ _ _ W) as (H & T & M & _).
  assert (NA' : no_acronyms wt recs \/ e_nextacr (g_env st2) <= 0) by (destruct NA as [NA|NA]; [left; exact NA|right; eapply no_numbering_env; exact NA]).
  destruct (holds_items _ _ _ _ _ _ _ _ _ H T NA' SR) as (F & tab & k & items & Q & HI & IT). destruct (IT st2 eq_refl eq_refl) as [_ QI].
  split; [|split].
  - destruct (fast_ok z F tab k st2 n _ items Q M HI QI) as (s & E & _). eauto.
  - intros stop. destruct (fast_ex_ok z F tab k st2 n _ items Q M HI QI stop) as (s & E & _). eauto.
  - intros fs stop LF. destruct (filt_ok z F tab k st2 n _ items Q M HI QI fs stop) as (s & E & _); [unfold zlen in LF; lia|]. eauto.
Qed.

(** ** C39: the universe *)

(** A read can be started: no call was made since the file was opened, or the last one
    ended a read. *)
Definition fresh (rcs : list call) (rrs : list resp) : Prop :=
  rcs = [] \/ exists cs rs, rcs = cs ++ [gdxDataReadDone] /\ rrs = rs ++ [ret 1].
Lemma fresh_mode : forall z rcs rrs a b, then_calls z rcs rrs a b -> fresh rcs rrs -> g_mode a = fr_init -> g_mode b = fr_init.
Proof.
  intros z rcs rrs a b [FA R] [->|(cs & rs & -> & ->)] M.
  - cbn in R. injection R as _ <-. exact M.
  - destruct (run_split _ _ _ _ _ _ R) as (ra & sm & rb & R1 & R2 & ER).
    pose proof (run_length _ _ _ _ _ R2) as L2. destruct rb as [|rb [|? ?]]; try discriminate L2. apply app_inj_tail in ER. destruct ER as [<- <-].
    destruct (run_cons _ _ _ _ _ _ R2) as (r' & s' & rs' & E & R3 & ER). injection ER as <- _. cbn in R3. injection R3 as _ ->. eapply done_ready. exact E.
Qed.

(** The symbol [n] as it is read with gdxDataReadStr. *)
Definition str_resp (t : Z * list str * list Z) : resp := ret_isv 1 [fst (fst t)] (snd (fst t)) (snd t).
Definition reads_all_str (z : zlib) (st : gst) (n : Z) (l : list (Z * list str * list Z)) : Prop :=
  exists s1 s2 s3, exec z (gdxDataReadStrStart n) st = Done (ret_i 1 [zlen l], s1) /\
    run z (repeat gdxDataReadStr (length l)) s1 = Done (List.map str_resp l, s2) /\ exec z gdxDataReadStr s2 = Done (ret 0, s3).

Lemma items_read_str : forall z F tab k st n dim items, reads_file z F tab k st -> g_mode st = fr_init -> has_items z F tab k n dim items -> quiet items st ->
  reads_all_str z st n (List.map (fun t => (fst (fst t), List.map (key_label (g_dic st)) (snd (fst t)), snd t)) (List.map (as_item st) items)).
Proof.
  intros z F tab k st n dim items Q M HI QI. destruct (str_reads_ok z F tab k st n _ items Q M HI QI) as (sa & EA & sb & EB & sc & EC & _).
  exists sa, sb, sc. unfold zlen. rewrite !map_length. split; [exact EA|]. split; [rewrite EB, !map_map; reflexivity|exact EC].
Qed.
Lemma labels_quiet : forall l st, quiet (List.map label_item l) st.
Proof. intros l st. right. rewrite Forall_map. apply Forall_forall. intros k _. exact I. Qed.
Lemma during_then : forall z cs rs a b, then_calls z cs rs a b -> during z cs a b.
Proof.
  intros z cs rs a b [FA R]. split; [|split; [|eauto]].
  - apply forallb_forall. intros c I. rewrite Forall_forall in FA. apply (FA c I).
  - eapply Forall_impl; [|exact FA]. intros c [_ H]. exact H.
Qed.

Lemma numbers_znth : forall k i, 1 <= i <= k -> znth (numbers 1 k) (i - 1) = Some i.
Proof.
  intros k i R. unfold numbers. rewrite znth_map. unfold znth. destruct (Z.ltb_spec (i - 1) 0); [lia|].
  rewrite (nth_error_nth' _ O) by (rewrite seq_length; lia). cbn [option_map]. rewrite seq_nth by lia. f_equal. lia.
Qed.
Lemma universe_items : forall z name prod compr cs rs st st2 rcs rrs st3 m k, reopened z name prod compr cs rs st st2 ->
  then_calls z rcs rrs st2 st3 -> answers z st2 gdxSystemInfo (ret_i 1 [m; k]) -> 0 <= k /\
  exists F tab, reads_file z F tab k st3 /\ has_items z F tab k 0 1 (List.map label_item (numbers 1 k)) /\
    quiet (List.map label_item (numbers 1 k)) st3 /\ (fresh rcs rrs -> g_mode st3 = fr_init).
Proof.
  intros z name prod compr cs rs st st2 rcs rrs st3 m k RO TC (x & SI). destruct (reopened_tables _ _ _ _ _ _ _ _ RO) as (D & _ & _ & _ & _ & _ & MO & _).
  cbn [exec] in SI. unfold system_info in SI. injection SI as _ K _.
  pose proof RO as (W & _). destruct (writes_jinv _ _ _ _ _ _ _ W) as ((J & JI) & _).
  destruct (back_from _ _ _ _ _ _ _ _ _ RO JI) as (F & Q & _).
  assert (KK : uel_count (g_dic st) = k).
  { rewrite <- K, D. unfold uel_count. cbn [d_uels loaded c_uels contents_of]. rewrite !zlen_map. reflexivity. }
  rewrite KK in Q. split; [rewrite <- KK; apply zlen_nonneg|]. exists F, (d_names (g_dic st)). split; [eapply reads_during; [eapply during_then; exact TC|exact Q]|].
  split; [left; auto|]. split; [apply labels_quiet|]. intros FR. eapply fresh_mode; eassumption.
Qed.

(** [k] labels in the file.  Further labels that the reader registers are not listed. *)
Theorem C39_universe : forall z name prod compr cs rs st st2 rcs rrs st3 m k, reopened z name prod compr cs rs st st2 ->
  then_calls z rcs rrs st2 st3 -> fresh rcs rrs -> answers z st2 gdxSystemInfo (ret_i 1 [m; k]) ->
  exists l, reads_all z st3 0 l /\ zlen l = k /\ forall i, 1 <= i <= k -> znth l (i - 1) = Some (1, [i], [0]).
Proof.
  intros z name prod compr cs rs st st2 rcs rrs st3 m k RO TC FR SI.
  destruct (universe_items _ _ _ _ _ _ _ _ _ _ _ _ _ RO TC SI) as (KP & F & tab & Q & HI & QI & M). specialize (M FR).
  eexists. split; [eapply items_read; eassumption|]. split; [rewrite !zlen_map; unfold zlen; rewrite numbers_length; lia|].
  intros i R. rewrite !znth_map, numbers_znth by exact R. reflexivity.
Qed.
(** Read with strings: the labels. *)
Theorem C39_universe_labels : forall z name prod compr cs rs st st2 rcs rrs st3 m k, reopened z name prod compr cs rs st st2 ->
  then_calls z rcs rrs st2 st3 -> fresh rcs rrs -> answers z st2 gdxSystemInfo (ret_i 1 [m; k]) ->
  exists l, reads_all_str z st3 0 l /\ zlen l = k /\ forall i, 1 <= i <= k -> exists t, label z st3 i t /\ znth l (i - 1) = Some (1, [t], [0]).
Proof.
  intros z name prod compr cs rs st st2 rcs rrs st3 m k RO TC FR SI.
  destruct (universe_items _ _ _ _ _ _ _ _ _ _ _ _ _ RO TC SI) as (KP & F & tab & Q & HI & QI & M). specialize (M FR).
  eexists. split; [eapply items_read_str; eassumption|]. split; [rewrite !zlen_map; unfold zlen; rewrite numbers_length; lia|].
  intros i R. rewrite !znth_map, numbers_znth by exact R. cbn [option_map as_item label_item fst snd List.map].
  assert (X : exists t, uel_text (g_dic st3) i = Some t).
  { unfold uel_text. pose proof (rf_uels _ _ _ _ _ Q) as RU. destruct (znth (d_uels (g_dic st3)) (i - 1)) as [e|] eqn:ZN; [eexists; reflexivity|].
    exfalso. destruct (znth_exists (d_uels (g_dic st3)) (i - 1)) as (e & X); [unfold uel_count in RU; lia|]. congruence. }
  destruct X as (t & X). exists t. split; [apply label_iff; exact X|]. unfold key_label. rewrite X. reflexivity.
Qed.

(** ** The hypotheses are met *)

(** A file in which a variable is written with raw indices, between a set and another
    parameter. *)
Definition nan_1 : Z := 9221120237041090561.
Definition rc_values : list Z := [4846369599423283200; 4847495499330125824; 4848621399236968448; 4849747299143811072; 4611686018427387904].
Definition rc_pre : list call :=
  [gdxSetSpecialValues (rc_values ++ [0; 0]);
   gdxUELRegisterRawStart; gdxUELRegisterRaw (s2z "a"); gdxUELRegisterRaw (s2z "B"); gdxUELRegisterRaw (s2z "c"); gdxUELRegisterDone;
   gdxDataWriteRawStart (s2z "s") (s2z "") 1 dt_set 0; gdxDataWriteRaw [1] [0]; gdxDataWriteRaw [2] [0]; gdxDataWriteDone].
Definition rc_body : list call :=
  [gdxDataWriteRaw [1; 2] [dbl_2_5; nan_1; plus_inf; minus_inf; minus_zero];
   gdxDataWriteRaw [1; 3] [4846369599423283200; 4847495499330125824; 4848621399236968448; 4849747299143811072; 4611686018427387904];
   gdxErrorCount; gdxDataWriteRaw [1; 3] [0; 0; 0; 0; 0]; gdxDataWriteRaw [2; 1] [0; dbl_1; dbl_2_5; dbl_1; dbl_1]].
Definition rc_start : call := gdxDataWriteRawStart (s2z "v") (s2z "a variable") 2 dt_var 3.
Definition rc_seg : list call := rc_start :: rc_body ++ [gdxDataWriteDone].
Definition rc_post : list call := [gdxDataWriteRawStartKeyBounds (s2z "p") (s2z "") 1 dt_par 0 [1] [3]; gdxDataWriteRaw [3] [dbl_1]; gdxDataWriteDone].
Definition rc_0 : gst := state_of (exec rle_zlib (gdxOpenWriteEx (s2z "v.gdx") (s2z "test") 0) (new_object [])).
Definition rc_sp : gst := state_of (run rle_zlib rc_pre rc_0).
Definition rc_sq : gst := state_of (run rle_zlib rc_seg rc_sp).
Definition rc_st : gst := state_of (run rle_zlib rc_post rc_sq).
Definition rc_closed : gst := state_of (exec rle_zlib gdxClose rc_st).
Definition rc_read : gst := state_of (exec rle_zlib (gdxOpenReadEx (s2z "v.gdx") 0) rc_closed).
Definition rc_rseg : list resp := answer_of (run rle_zlib rc_seg rc_sp).
Definition rc_file : list Z := match disk_get (e_disk (g_env rc_closed)) (s2z "v.gdx") with Some F => F | None => [] end.
Definition rc_rpre : list resp := answer_of (run rle_zlib rc_pre rc_0).
Definition rc_rpost : list resp := answer_of (run rle_zlib rc_post rc_sq).
Definition rc_records : list (list Z * list Z) :=
  [([1; 2], [dbl_2_5; nan_1; plus_inf; minus_inf; minus_zero]); ([1; 3], rc_values); ([2; 1], [0; dbl_1; dbl_2_5; dbl_1; dbl_1])].
Lemma rc_parts : in_parts rle_zlib (s2z "v.gdx") (s2z "test") 0 rc_pre rc_sp rc_seg rc_rseg rc_sq rc_post rc_st rc_read.
Proof.
  exists rc_rpre, rc_rpost. split.
  { apply writes_made. exists (new_object []), rc_0, (ret_i 1 [0]). split; [vm_compute; reflexivity|]. split; [reflexivity|]. split; [apply str_okb_ok; vm_compute; reflexivity|].
    split; [apply calls_okb_ok; vm_compute; reflexivity|]. vm_compute. reflexivity. }
  split; [vm_compute; reflexivity|]. split; [vm_compute; reflexivity|]. split.
  { apply writes_made. exists (new_object []), rc_0, (ret_i 1 [0]). split; [vm_compute; reflexivity|]. split; [reflexivity|]. split; [apply str_okb_ok; vm_compute; reflexivity|].
    split; [apply calls_okb_ok; vm_compute; reflexivity|]. vm_compute. reflexivity. }
  split; [vm_compute; reflexivity|]. exists (ret 0), rc_closed, rc_file, rc_closed, 0.
  split; [vm_compute; reflexivity|]. split; [vm_compute; reflexivity|]. split; [apply counters_fit_test; vm_compute; reflexivity|].
  split; [vm_compute; reflexivity|]. split; [split; vm_compute; reflexivity|]. split; [vm_compute; reflexivity|]. split; [reflexivity|].
  vm_compute. reflexivity.
Qed.
Lemma rc_wrote : wrote_raw rle_zlib rc_read 2 2 dt_var rc_values rc_records.
Proof.
  exists (s2z "v.gdx"), (s2z "test"), 0, rc_pre, rc_sp, rc_start, (s2z "v"), (s2z "a variable"), 3, [(0, INT_MAX); (0, INT_MAX)], rc_body, (ret 1),
    [ret 1; ret 1; ret 0; ret 0; ret 1], (ret 1), rc_sq, rc_post, rc_st.
  split; [exact rc_parts|]. split; [exact (RS_plain (s2z "v") (s2z "a variable") 2 dt_var 3)|]. split; [reflexivity|]. split; [reflexivity|].
  split; [repeat constructor|]. split; [exists 3; ans|]. split; [ans|]. split; [reflexivity|]. split; [reflexivity|]. repeat constructor.
Qed.
Definition rc_tables : list call := [gdxSetReadSpecialValues [dbl_1; dbl_2_5; dbl_1; dbl_1; 5; 0; 0]].
Definition rc_read2 : gst := state_of (run rle_zlib rc_tables rc_read).

Example C01_case : exists f, translates rc_values standard_values f /\ reads_all rle_zlib rc_read 2 (as_read f None rc_records).
Proof.
  refine (C01_after_opening _ _ _ _ _ _ _ rc_wrote _ _); [left; discriminate|]. left. repeat constructor.
Qed.
Lemma rc_then : then_calls rle_zlib rc_tables [ret 1] rc_read rc_read2.
Proof.
  split; [|vm_compute; reflexivity]. constructor; [|constructor]. split; [reflexivity|]. apply call_okb_ok. vm_compute. reflexivity.
Qed.
Definition rc_list : list (Z * list Z * list Z) :=
  [(1, [1; 2], [dbl_2_5; dbl_2_5; dbl_1; dbl_1; 0]); (2, [1; 3], [dbl_1; dbl_2_5; dbl_1; dbl_1; 5]); (1, [2; 1], [0; dbl_1; dbl_2_5; dbl_1; dbl_1])].
Lemma rc_back : read_back rle_zlib 2 2 dt_var rc_values [dbl_1; dbl_2_5; dbl_1; dbl_1; 5] rc_records rc_list.
Proof.
  exists rc_read, rc_tables, [ret 1], rc_read2. split; [apply wrote_now; left; exact rc_wrote|]. split; [left; discriminate|]. split; [exact rc_then|]. split; [reflexivity|].
  split; [left; repeat constructor|].
  exists (state_of (exec rle_zlib (gdxDataReadRawStart 2) rc_read2)).
  exists (state_of (run rle_zlib (repeat gdxDataReadRaw 3) (state_of (exec rle_zlib (gdxDataReadRawStart 2) rc_read2)))).
  eexists. split; [vm_compute; reflexivity|]. split; [vm_compute; reflexivity|]. vm_compute. reflexivity.
Qed.
Example C03_case : nth_error rc_list 0 = Some (1, [1; 2], [dbl_2_5; dbl_2_5; dbl_1; dbl_1; 0]) -> first_differs [1; 2] [1; 3] 2.
Proof.
  intros H. destruct (C03_first_change _ _ _ _ _ _ _ _ rc_back) as (_ & C). destruct (C 0%nat _ _ _ _ _ _ H eq_refl) as [[_ X]|[X _]]; [exact X|discriminate].
Qed.
Example C04_case : exists a vs, nth_error rc_list 0 = Some (a, [1; 2], vs) /\ nth_error vs 0 = Some dbl_2_5.
Proof.
  refine (C04_numbers_survive _ _ _ _ _ _ _ _ 0 [1; 2] _ 0 dbl_2_5 rc_back eq_refl eq_refl _).
  split; [cbn; unfold dbl_2_5; intuition discriminate|]. repeat split; try discriminate.
Qed.
Example C05_case : exists a vs, nth_error rc_list 0 = Some (a, [1; 2], vs) /\ nth_error vs 1 = Some dbl_2_5.
Proof.
  refine (proj2 (proj2 (C05_machine_values _ _ _ _ _ _ _ _ 0 [1; 2] _ 1 nan_1 rc_back eq_refl eq_refl _)) eq_refl).
  cbn. unfold nan_1. intuition discriminate.
Qed.
Example C05_case_special : exists a vs u, nth_error rc_list 1 = Some (a, [1; 3], vs) /\ nth_error vs 4 = Some u /\ nth_error [dbl_1; dbl_2_5; dbl_1; dbl_1; 5] 4 = Some u.
Proof. refine (C05_special_values_are_translated _ _ _ _ _ _ _ _ 1 [1; 3] _ 4 4611686018427387904 4 rc_back eq_refl eq_refl eq_refl). Qed.
Example C21_case : forall l, read_back rle_zlib 2 2 dt_var rc_values [dbl_1; dbl_2_5; dbl_1; dbl_1; 5] rc_records l -> l = rc_list.
Proof. intros l H. eapply C21_independent_of_the_rest; [exact H|exact rc_back|]. repeat constructor. Qed.
Definition rc_raw : list (Z * list Z * list Z) :=
  [(1, [1; 2], [dbl_2_5; SV_NA; SV_PINF; SV_MINF; 0]); (2, [1; 3], standard_values); (1, [2; 1], [0; dbl_1; dbl_2_5; dbl_1; dbl_1])].
Lemma rc_reads : reads_all rle_zlib rc_read 2 rc_raw.
Proof.
  exists (state_of (exec rle_zlib (gdxDataReadRawStart 2) rc_read)).
  exists (state_of (run rle_zlib (repeat gdxDataReadRaw 3) (state_of (exec rle_zlib (gdxDataReadRawStart 2) rc_read)))).
  eexists. split; [vm_compute; reflexivity|]. split; [vm_compute; reflexivity|]. vm_compute. reflexivity.
Qed.
Lemma rc_ends : 
  (exists r st', exec rle_zlib (gdxDataReadRawFast 2) rc_read = Done (r, st')) /\
  (forall stop, exists r st', exec rle_zlib (gdxDataReadRawFastEx 2 stop) rc_read = Done (r, st')) /\
  (forall fs stop, 2 <= zlen fs -> exists r st', exec rle_zlib (gdxDataReadRawFastFilt 2 fs stop) rc_read = Done (r, st')).
Proof. refine (C37_callback_reads_end _ _ _ _ _ _ _ (wrote_now _ _ _ _ _ _ _ (or_introl rc_wrote)) _ _); [left; discriminate|]. left. repeat constructor. Qed.
Example C37_case : exists st', exec rle_zlib (gdxDataReadRawFastEx 2 (Some 1%nat)) rc_read =
  Done (mkResp 1 [3] [] [] [([1; 2], [dbl_2_5; SV_NA; SV_PINF; SV_MINF; 0], 1); ([1; 3], standard_values, 2)], st').
Proof.
  destruct (proj1 (proj2 rc_ends) (Some 1%nat)) as (r & st' & E).
  exists st'. rewrite E. rewrite (C37_fast_ex_agrees _ _ _ _ _ _ _ rc_reads E). reflexivity.
Qed.
Example C37_case_all : exists st', exec rle_zlib (gdxDataReadRawFast 2) rc_read = Done (mkResp 1 [3] [] [] (List.map (fun t => (snd (fst t), snd t, 0)) rc_raw), st').
Proof.
  destruct (proj1 rc_ends) as (r & st' & E).
  exists st'. rewrite E. rewrite (C37_fast_agrees _ _ _ _ _ _ rc_reads E). reflexivity.
Qed.
Lemma rc_labels : distinct_labels rle_zlib rc_read.
Proof.
  assert (X : forall i s, label rle_zlib rc_read i s -> (i = 1 /\ s = s2z "a") \/ (i = 2 /\ s = s2z "B") \/ (i = 3 /\ s = s2z "c")).
  { intros i s L. apply label_iff in L. unfold uel_text in L. assert (D : d_uels (g_dic rc_read) = [(s2z "a", -1); (s2z "B", -1); (s2z "c", -1)]) by (vm_compute; reflexivity).
    rewrite D in L. clear D. unfold znth in L. destruct (Z.ltb_spec (i - 1) 0); [discriminate L|].
    destruct (Z.to_nat (i - 1)) as [|[|[|k]]] eqn:K; cbn in L; try (injection L as <-).
    - left. split; [lia|reflexivity].
    - right; left. split; [lia|reflexivity].
    - right; right. split; [lia|reflexivity].
    - destruct k; discriminate L. }
  intros i j s t A B U. destruct (X _ _ A) as [[-> ->]|[[-> ->]|[-> ->]]]; destruct (X _ _ B) as [[-> ->]|[[-> ->]|[-> ->]]]; try reflexivity; vm_compute in U; discriminate U.
Qed.
Example C37_case_filter : exists r st', exec rle_zlib (gdxDataReadRawFastFilt 2 [s2z ""; s2z "b"] None) rc_read = Done (r, st') /\
  r = mkResp 1 [] [] [] [([1; 2], [dbl_2_5; SV_NA; SV_PINF; SV_MINF; 0], 0)].
Proof.
  destruct (proj2 (proj2 rc_ends) [s2z ""; s2z "b"] None) as (r & st' & E);
    [unfold zlen; cbn; lia|].
  exists r, st'. split; [exact E|]. clear - E. vm_compute in E. injection E as <- _. reflexivity.
Qed.
Example C39_case : exists l, reads_all_str rle_zlib rc_read 0 l /\ zlen l = 3 /\
  forall i, 1 <= i <= 3 -> exists t, label rle_zlib rc_read i t /\ znth l (i - 1) = Some (1, [t], [0]).
Proof.
  pose proof rc_parts as (? & ? & _ & _ & _ & RO).
  refine (C39_universe_labels _ _ _ _ _ _ _ _ [] [] rc_read 3 3 RO _ _ _); [split; [constructor|generalize rc_read; reflexivity]|left; reflexivity|ans].
Qed.

Print Assumptions C01_raw_round_trip.
Print Assumptions C01_after_opening.
Print Assumptions C01_after_reading.
Print Assumptions C01_empty_scalar.
Print Assumptions C03_first_change.
Print Assumptions C04_numbers_survive.
Print Assumptions C05_special_values_are_translated.
Print Assumptions C05_machine_values.
Print Assumptions C21_independent_of_the_rest.
Print Assumptions C37_fast_ex_agrees.
Print Assumptions C37_fast_agrees.
Print Assumptions C37_filt_agrees.
Print Assumptions C37_callback_reads_end.
Print Assumptions C39_universe.
Print Assumptions C39_universe_labels.
