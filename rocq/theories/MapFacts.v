(** * MapFacts: reading records in user numbers

    The two ways in which gdxDataReadMap gets its records (from the file one after the
    other, or from a sorted list), in terms of the records the symbol has. *)

From Coq Require Import String Permutation Sorted.
From Verif Require Import Base Prim Values FloatAcr Records LinkedData StrHash IntMap Strings AStream BufStream State
  FileImage ApiCore ApiFile ApiWrite ApiRead Api FileFacts BlockFacts StreamFacts OpenFacts DicInv WriteInv WriteSteps Journal WriteCalls WriteTrace
  Footprint SessInv FileFlow Sessions Vocab PropErr Reopen ReadFacts ReadRecs ReadLoops PropMeta Contents.
Open Scope Z_scope.
Open Scope list_scope.

(** ** Indices and user numbers *)

Definition num (us : list (str * Z)) (k : Z) : Z := match znth us (k - 1) with Some e => snd e | None => -1 end.
Definition act_map (us : list (str * Z)) (a : dact) (k : Z) : option Z :=
  match a with
  | dm_unmapped => Some k
  | dm_strict => if 0 <=? num us k then Some (num us k) else None
  | dm_filter f => if in_filter f (num us k) then Some (num us k) else None
  | dm_expand => None
  end.
Fixpoint map_keys (us : list (str * Z)) (acts : list dact) (ks : list Z) : option (list Z) :=
  match acts, ks with
  | a :: acts', k :: ks' => match act_map us a k, map_keys us acts' ks' with Some u, Some r => Some (u :: r) | _, _ => None end
  | _, _ => Some []
  end.
Definition no_expand (acts : list dact) : Prop := Forall (fun a => a <> dm_expand) acts.
Definition in_table (us : list (str * Z)) (k : Z) : Prop := 1 <= k <= zlen us.

Lemma user_map_num : forall d k, in_table (d_uels d) k -> user_map d k = Done (num (d_uels d) k).
Proof. intros d k [A B]. unfold user_map, num. destruct (znth_exists (d_uels d) (k - 1) ltac:(lia)) as (e & ->). reflexivity. Qed.

Lemma map_keys_length : forall us acts ks u, map_keys us acts ks = Some u -> length acts = length ks -> length u = length ks.
Proof.
  induction acts as [|a acts IH]; intros [|k ks] u H L; try discriminate; [injection H as <-; reflexivity|]. cbn [map_keys] in H.
  destruct (act_map us a k); [|discriminate]. destruct (map_keys us acts ks) as [r|] eqn:E; [|discriminate]. injection H as <-. cbn. rewrite (IH _ _ E); [reflexivity|]. cbn in L. lia.
Qed.
Lemma map_keys_firstn : forall us i acts ks u, map_keys us acts ks = Some u -> map_keys us (firstn i acts) (firstn i ks) = Some (firstn i u).
Proof.
  induction i as [|i IH]; intros acts ks u H; [reflexivity|]. destruct acts as [|a acts], ks as [|k ks]; cbn [map_keys firstn] in *; try (injection H as <-; reflexivity).
  destruct (act_map us a k) as [v|]; [|discriminate]. destruct (map_keys us acts ks) as [r|] eqn:E; [|discriminate]. injection H as <-. rewrite (IH _ _ _ E). reflexivity.
Qed.
Lemma map_keys_app : forall us a1 k1 a2 k2 u1, length a1 = length k1 -> map_keys us a1 k1 = Some u1 ->
  map_keys us (a1 ++ a2) (k1 ++ k2) = option_map (app u1) (map_keys us a2 k2).
Proof.
  induction a1 as [|a a1 IH]; intros [|k k1] a2 k2 u1 L H; try discriminate.
  - injection H as <-. cbn [app]. destruct (map_keys us a2 k2); reflexivity.
  - cbn [map_keys app] in *. destruct (act_map us a k) as [v|]; [|discriminate]. destruct (map_keys us a1 k1) as [r|] eqn:E; [|discriminate]. injection H as <-.
    rewrite (IH k1 a2 k2 r ltac:(cbn in L; lia) E). destruct (map_keys us a2 k2); reflexivity.
Qed.

(** The indices of a rejected record: all the offending ones negated, or the first one. *)
Fixpoint neg_all (us : list (str * Z)) (acts : list dact) (ks : list Z) : list Z :=
  match acts, ks with
  | a :: acts', k :: ks' => (match act_map us a k with Some _ => k | None => - k end) :: neg_all us acts' ks'
  | _, _ => ks
  end.
Fixpoint neg_first (us : list (str * Z)) (acts : list dact) (ks : list Z) : list Z :=
  match acts, ks with
  | a :: acts', k :: ks' => match act_map us a k with Some _ => k :: neg_first us acts' ks' | None => (- k) :: ks' end
  | _, _ => ks
  end.
(** The first offending dimension, from one; the dimension if there is none. *)
Fixpoint fail_at (us : list (str * Z)) (acts : list dact) (ks : list Z) : nat :=
  match acts, ks with
  | a :: acts', k :: ks' => match act_map us a k with Some _ => S (fail_at us acts' ks') | None => 1%nat end
  | _, _ => O
  end.

(** What the entries of the array in which the indices are collected are good for. *)
Definition buf_ok (us : list (str * Z)) (acts : list dact) (ks : list Z) (fi : nat) (buf : list Z) : Prop :=
  length buf = length acts /\ (fi <= length acts)%nat /\
  map_keys us (firstn (fi - 1) acts) (firstn (fi - 1) ks) = Some (firstn (fi - 1) buf).

Lemma fail_at_range : forall us acts ks, map_keys us acts ks = None -> (1 <= fail_at us acts ks <= length acts)%nat.
Proof.
  induction acts as [|a acts IH]; intros [|k ks] H; try discriminate. cbn [map_keys fail_at length] in *. destruct (act_map us a k); [|lia].
  destruct (map_keys us acts ks) eqn:E; [discriminate|]. specialize (IH _ E). lia.
Qed.

(** ** One record *)

Lemma step_keys_ok : forall d a2 k2 a1 k1 u1 b2 addnew, no_expand a2 -> Forall (in_table (d_uels d)) k2 -> length a2 = length k2 -> length b2 = length a2 ->
  length a1 = length k1 -> length u1 = length k1 ->
  map_keys (d_uels d) a1 k1 = Some u1 ->
  match map_keys (d_uels d) a2 k2 with
  | Some u2 => step_keys d a2 k2 (length a1) (u1 ++ b2) addnew = Done (SKeys (u1 ++ u2) addnew)
  | None => exists b, step_keys d a2 k2 (length a1) (u1 ++ b2) addnew = Done (SFail b addnew (length a1 + fail_at (d_uels d) a2 k2)) /\
      buf_ok (d_uels d) (a1 ++ a2) (k1 ++ k2) (length a1 + fail_at (d_uels d) a2 k2) b
  end.
Proof.
  intros d. induction a2 as [|a a2 IH]; intros [|k k2] a1 k1 u1 b2 addnew NE IT L2 LB L1 LU M1; try discriminate.
  - destruct b2; [|discriminate]. cbn [map_keys step_keys]. rewrite app_nil_r. reflexivity.
  - destruct b2 as [|x b2]; [discriminate|]. pose proof (Forall_inv NE) as N1. pose proof (Forall_inv IT) as [I1 I2].
    assert (STEP : forall v, act_map (d_uels d) a k = Some v -> step_keys d (a :: a2) (k :: k2) (length a1) (u1 ++ x :: b2) addnew = step_keys d a2 k2 (S (length a1)) ((u1 ++ [v]) ++ b2) addnew).
    { intros v AV. cbn [step_keys]. unfold uel_count. destruct (Z.ltb_spec k 0) as [|_]; [lia|]. destruct (Z.geb_spec k (zlen (d_uels d) + 1)) as [|_]; [lia|]. cbn [orb].
      rewrite <- app_assoc. cbn [app]. rewrite L1, <- LU.
      destruct a as [| |f|]; cbn [act_map] in AV; [| | |discriminate]; rewrite ?user_map_num by (split; lia); cbn [obind].
      - injection AV as ->. rewrite set_nth_mid. reflexivity.
      - destruct (0 <=? num (d_uels d) k); [|discriminate]. injection AV as <-. rewrite set_nth_mid. reflexivity.
      - destruct (in_filter f (num (d_uels d) k)); [|discriminate]. injection AV as <-. rewrite set_nth_mid. reflexivity. }
    cbn [map_keys]. destruct (act_map (d_uels d) a k) as [v|] eqn:AV.
    + rewrite (STEP v eq_refl).
      specialize (IH k2 (a1 ++ [a]) (k1 ++ [k]) (u1 ++ [v]) b2 addnew (Forall_inv_tail NE) (Forall_inv_tail IT) ltac:(cbn in L2; lia) ltac:(cbn in LB; lia) ltac:(rewrite !app_length; cbn; lia) ltac:(rewrite !app_length; cbn; lia)).
      assert (M2 : map_keys (d_uels d) (a1 ++ [a]) (k1 ++ [k]) = Some (u1 ++ [v])).
      { rewrite (map_keys_app _ _ _ _ _ _ L1 M1). cbn [map_keys]. rewrite AV. reflexivity. }
      specialize (IH M2). rewrite app_length in IH. cbn [length] in IH. rewrite Nat.add_1_r in IH.
      destruct (map_keys (d_uels d) a2 k2) as [u2|].
      * rewrite IH, <- app_assoc. reflexivity.
      * destruct IH as (b & E & B). exists b. cbn [fail_at]. rewrite AV. rewrite <- !app_assoc in B. cbn [app] in B.
        rewrite Nat.add_succ_r. change (S (length a1) + fail_at (d_uels d) a2 k2)%nat with (S (length a1 + fail_at (d_uels d) a2 k2)) in E, B. auto.
    + exists (u1 ++ x :: b2). cbn [fail_at]. rewrite AV. rewrite Nat.add_1_r. split.
      * cbn [step_keys]. unfold uel_count. destruct (Z.ltb_spec k 0) as [|_]; [lia|]. destruct (Z.geb_spec k (zlen (d_uels d) + 1)) as [|_]; [lia|]. cbn [orb].
        destruct a as [| |f|]; cbn [act_map] in AV; [discriminate| | |contradiction N1; reflexivity]; rewrite ?user_map_num by (split; lia); cbn [obind].
        -- destruct (0 <=? num (d_uels d) k); [discriminate|]. reflexivity.
        -- destruct (in_filter f (num (d_uels d) k)); [discriminate|]. reflexivity.
      * split; [rewrite !app_length; cbn in *; lia|]. split; [rewrite app_length; cbn; lia|].
        replace (S (length a1) - 1)%nat with (length a1) by lia. rewrite firstn_app, Nat.sub_diag, firstn_all. cbn [firstn]. rewrite app_nil_r.
        rewrite L1 at 1. rewrite firstn_app, Nat.sub_diag, firstn_all. cbn [firstn]. rewrite app_nil_r.
        rewrite L1, <- LU, firstn_app, Nat.sub_diag, firstn_all. cbn [firstn]. rewrite app_nil_r. exact M1.
Qed.

Lemma map_record_ok : forall d a2 k2 a1 k1 u1 b2, no_expand a2 -> Forall (in_table (d_uels d)) k2 -> length a2 = length k2 -> length b2 = length a2 ->
  length a1 = length k1 -> length u1 = length k1 ->
  map_keys (d_uels d) a1 k1 = Some u1 ->
  match map_keys (d_uels d) a2 k2 with
  | Some u2 => map_record d a2 k2 (length a1) (u1 ++ b2) im_new false = Done (MOk (u1 ++ u2) im_new false)
  | None => exists b, map_record d a2 k2 (length a1) (u1 ++ b2) im_new false = Done (MErr b im_new false (length a1 + fail_at (d_uels d) a2 k2)) /\
      buf_ok (d_uels d) (a1 ++ a2) (k1 ++ k2) (length a1 + fail_at (d_uels d) a2 k2) b
  end.
Proof.
  intros d. induction a2 as [|a a2 IH]; intros [|k k2] a1 k1 u1 b2 NE IT L2 LB L1 LU M1; try discriminate.
  - destruct b2; [|discriminate]. cbn [map_keys map_record]. rewrite app_nil_r. reflexivity.
  - destruct b2 as [|x b2]; [discriminate|]. pose proof (Forall_inv NE) as N1. pose proof (Forall_inv IT) as [I1 I2].
    assert (STEP : forall v, act_map (d_uels d) a k = Some v -> map_record d (a :: a2) (k :: k2) (length a1) (u1 ++ x :: b2) im_new false = map_record d a2 k2 (S (length a1)) ((u1 ++ [v]) ++ b2) im_new false).
    { intros v AV. cbn [map_record]. destruct (Z.ltb_spec k 0) as [|_]; [lia|].
      rewrite <- app_assoc. cbn [app]. rewrite L1, <- LU.
      destruct a as [| |f|]; cbn [act_map] in AV; [| | |discriminate]; rewrite ?user_map_num by (split; lia); cbn [obind].
      - injection AV as ->. rewrite set_nth_mid. reflexivity.
      - destruct (0 <=? num (d_uels d) k); [|discriminate]. injection AV as <-. rewrite set_nth_mid. reflexivity.
      - destruct (in_filter f (num (d_uels d) k)); [|discriminate]. injection AV as <-. rewrite set_nth_mid. reflexivity. }
    cbn [map_keys]. destruct (act_map (d_uels d) a k) as [v|] eqn:AV.
    + rewrite (STEP v eq_refl).
      specialize (IH k2 (a1 ++ [a]) (k1 ++ [k]) (u1 ++ [v]) b2 (Forall_inv_tail NE) (Forall_inv_tail IT) ltac:(cbn in L2; lia) ltac:(cbn in LB; lia) ltac:(rewrite !app_length; cbn; lia) ltac:(rewrite !app_length; cbn; lia)).
      assert (M2 : map_keys (d_uels d) (a1 ++ [a]) (k1 ++ [k]) = Some (u1 ++ [v])).
      { rewrite (map_keys_app _ _ _ _ _ _ L1 M1). cbn [map_keys]. rewrite AV. reflexivity. }
      specialize (IH M2). rewrite app_length in IH. cbn [length] in IH. rewrite Nat.add_1_r in IH.
      destruct (map_keys (d_uels d) a2 k2) as [u2|].
      * rewrite IH, <- app_assoc. reflexivity.
      * destruct IH as (b & E & B). exists b. cbn [fail_at]. rewrite AV. rewrite <- !app_assoc in B. cbn [app] in B.
        rewrite Nat.add_succ_r. change (S (length a1) + fail_at (d_uels d) a2 k2)%nat with (S (length a1 + fail_at (d_uels d) a2 k2)) in E, B. auto.
    + exists (u1 ++ x :: b2). cbn [fail_at]. rewrite AV. rewrite Nat.add_1_r. split.
      * cbn [map_record]. destruct (Z.ltb_spec k 0) as [|_]; [lia|].
        destruct a as [| |f|]; cbn [act_map] in AV; [discriminate| | |contradiction N1; reflexivity]; rewrite ?user_map_num by (split; lia); cbn [obind].
        -- destruct (0 <=? num (d_uels d) k); [discriminate|]. reflexivity.
        -- destruct (in_filter f (num (d_uels d) k)); [discriminate|]. reflexivity.
      * split; [rewrite !app_length; cbn in *; lia|]. split; [rewrite app_length; cbn; lia|].
        replace (S (length a1) - 1)%nat with (length a1) by lia. rewrite firstn_app, Nat.sub_diag, firstn_all. cbn [firstn]. rewrite app_nil_r.
        rewrite L1 at 1. rewrite firstn_app, Nat.sub_diag, firstn_all. cbn [firstn]. rewrite app_nil_r.
        rewrite L1, <- LU, firstn_app, Nat.sub_diag, firstn_all. cbn [firstn]. rewrite app_nil_r. exact M1.
Qed.

Lemma reject_keys_ok : forall d acts ks, no_expand acts -> Forall (in_table (d_uels d)) ks -> length acts = length ks ->
  reject_keys d acts ks = Done (Some (neg_all (d_uels d) acts ks)).
Proof.
  intros d. induction acts as [|a acts IH]; intros [|k ks] NE IT L; try discriminate; [reflexivity|]. pose proof (Forall_inv NE) as N1. pose proof (Forall_inv IT) as [I1 I2].
  cbn [reject_keys neg_all]. destruct (Z.ltb_spec k 0) as [|_]; [lia|].
  specialize (IH ks (Forall_inv_tail NE) (Forall_inv_tail IT) ltac:(cbn in L; lia)).
  destruct a as [| |f|]; [| | |contradiction N1; reflexivity]; rewrite ?user_map_num by (split; lia); cbn [obind act_map]; rewrite IH; cbn [obind option_map]; [reflexivity| |].
  - destruct (Z.leb_spec 0 (num (d_uels d) k)), (Z.ltb_spec (num (d_uels d) k) 0); try lia; reflexivity.
  - destruct (in_filter f (num (d_uels d) k)); reflexivity.
Qed.
Lemma neg_at_first : forall us acts ks, length acts = length ks -> map_keys us acts ks = None -> neg_at (fail_at us acts ks - 1) ks = neg_first us acts ks.
Proof.
  induction acts as [|a acts IH]; intros [|k ks] L H; try discriminate. cbn [fail_at neg_first map_keys] in *.
  destruct (act_map us a k) eqn:E; [|reflexivity]. destruct (map_keys us acts ks) eqn:M; [discriminate|]. specialize (IH ks ltac:(cbn in L; lia) M).
  pose proof (fail_at_range _ _ _ M) as R. replace (S (fail_at us acts ks) - 1)%nat with (S (fail_at us acts ks - 1)) by lia.
  revert IH. unfold neg_at. cbn [nth_error set_nth]. destruct (nth_error ks (fail_at us acts ks - 1)); intros <-; reflexivity.
Qed.

(** ** The file gives the records with the position of the first change *)

(** The record [ks], read after [prev], comes with [af]. *)
Definition link (dim : nat) (prev : option (list Z)) (ks : list Z) (af : Z) : Prop :=
  (dim = O /\ af = 0) \/ (1 <= af <= Z.of_nat dim /\ match prev with None => af = 1 | Some p => firstn (Z.to_nat af - 1) ks = firstn (Z.to_nat af - 1) p end).
Fixpoint chained {G} (dim : nat) (prev : option (list Z)) (todo : list (Z * list Z * G)) : Prop :=
  match todo with
  | [] => True
  | it :: r => link dim prev (snd (fst it)) (fst (fst it)) /\ length (snd (fst it)) = dim /\ chained dim (Some (snd (fst it))) r
  end.

(** From one record to the next: [i] entries of the array can be used again. *)
Lemma carry : forall us acts prev ks af fi buf, link (length acts) prev ks af -> length ks = length acts -> length buf = length acts -> (fi <= length acts)%nat ->
  (forall p, prev = Some p -> length p = length acts /\ buf_ok us acts p fi buf) ->
  forall i, i = (Nat.min fi (Z.to_nat af) - 1)%nat -> map_keys us (firstn i acts) (firstn i ks) = Some (firstn i buf).
Proof.
  intros us acts prev ks af fi buf LK LK2 LB LF B i ->. destruct LK as [(D & ->)|(R & LK)].
  - rewrite Nat.min_0_r. reflexivity.
  - destruct prev as [p|].
    + destruct (B p eq_refl) as (LP & _ & _ & M). set (i := (Nat.min fi (Z.to_nat af) - 1)%nat).
      assert (E : firstn i ks = firstn i p).
      { rewrite <- (Nat.min_l i (Z.to_nat af - 1)) by (unfold i; lia). rewrite <- !firstn_firstn. rewrite LK. reflexivity. }
      rewrite E. apply (map_keys_firstn us i) in M. rewrite !firstn_firstn, !(Nat.min_l i (fi - 1)) in M by (unfold i; lia). exact M.
    + subst af. replace (Nat.min fi (Z.to_nat 1) - 1)%nat with O by lia. reflexivity.
Qed.
Lemma fail_at_app : forall us a1 k1 a2 k2 u1, length a1 = length k1 -> map_keys us a1 k1 = Some u1 -> fail_at us (a1 ++ a2) (k1 ++ k2) = (length a1 + fail_at us a2 k2)%nat.
Proof.
  induction a1 as [|a a1 IH]; intros [|k k1] a2 k2 u1 L H; try discriminate; [reflexivity|]. cbn [map_keys app fail_at length] in *.
  destruct (act_map us a k) as [v|]; [|discriminate]. destruct (map_keys us a1 k1) as [r|] eqn:E; [|discriminate]. rewrite (IH k1 a2 k2 r ltac:(lia) E). reflexivity.
Qed.

Lemma Forall_skipn_all : forall {A} (P : A -> Prop) i l, Forall P l -> Forall P (skipn i l).
Proof. intros A P. induction i as [|i IH]; intros [|x l] F; cbn; auto. apply IH. exact (Forall_inv_tail F). Qed.

(** One record, as a whole. *)
Lemma step_whole : forall d acts ks i buf addnew, no_expand acts -> Forall (in_table (d_uels d)) ks -> length acts = length ks -> length buf = length acts -> (i <= length acts)%nat ->
  map_keys (d_uels d) (firstn i acts) (firstn i ks) = Some (firstn i buf) ->
  match map_keys (d_uels d) acts ks with
  | Some u => step_keys d (skipn i acts) (skipn i ks) i buf addnew = Done (SKeys u addnew)
  | None => exists b, step_keys d (skipn i acts) (skipn i ks) i buf addnew = Done (SFail b addnew (fail_at (d_uels d) acts ks)) /\
      buf_ok (d_uels d) acts ks (fail_at (d_uels d) acts ks) b
  end.
Proof.
  intros d acts ks i buf addnew NE IT L LB LI M.
  assert (LA : length (firstn i acts) = i) by (rewrite firstn_length; lia). assert (LK : length (firstn i ks) = i) by (rewrite firstn_length; lia).
  assert (LU : length (firstn i buf) = i) by (rewrite firstn_length; lia).
  assert (NE2 : no_expand (skipn i acts)) by (apply Forall_skipn_all; exact NE).
  assert (IT2 : Forall (in_table (d_uels d)) (skipn i ks)) by (apply Forall_skipn_all; exact IT).
  pose proof (step_keys_ok d (skipn i acts) (skipn i ks) (firstn i acts) (firstn i ks) (firstn i buf) (skipn i buf) addnew NE2 IT2 ltac:(rewrite !skipn_length; lia) ltac:(rewrite !skipn_length; lia) ltac:(lia) ltac:(lia) M) as P.
  rewrite LA, firstn_skipn in P.
  pose proof (map_keys_app (d_uels d) (firstn i acts) (firstn i ks) (skipn i acts) (skipn i ks) _ ltac:(lia) M) as MA. rewrite !firstn_skipn in MA.
  pose proof (fail_at_app (d_uels d) (firstn i acts) (firstn i ks) (skipn i acts) (skipn i ks) _ ltac:(lia) M) as FA. rewrite !firstn_skipn, LA in FA.
  rewrite MA. destruct (map_keys (d_uels d) (skipn i acts) (skipn i ks)) as [u2|]; cbn [option_map]; [exact P|]. rewrite FA.
  destruct P as (b & P1 & P2). rewrite !firstn_skipn in P2. eauto.
Qed.

Lemma map_whole : forall d acts ks i buf, no_expand acts -> Forall (in_table (d_uels d)) ks -> length acts = length ks -> length buf = length acts -> (i <= length acts)%nat ->
  map_keys (d_uels d) (firstn i acts) (firstn i ks) = Some (firstn i buf) ->
  match map_keys (d_uels d) acts ks with
  | Some u => map_record d (skipn i acts) (skipn i ks) i buf im_new false = Done (MOk u im_new false)
  | None => exists b, map_record d (skipn i acts) (skipn i ks) i buf im_new false = Done (MErr b im_new false (fail_at (d_uels d) acts ks)) /\
      buf_ok (d_uels d) acts ks (fail_at (d_uels d) acts ks) b
  end.
Proof.
  intros d acts ks i buf NE IT L LB LI M.
  assert (LA : length (firstn i acts) = i) by (rewrite firstn_length; lia). assert (LK : length (firstn i ks) = i) by (rewrite firstn_length; lia).
  assert (LU : length (firstn i buf) = i) by (rewrite firstn_length; lia).
  assert (NE2 : no_expand (skipn i acts)) by (apply Forall_skipn_all; exact NE).
  assert (IT2 : Forall (in_table (d_uels d)) (skipn i ks)) by (apply Forall_skipn_all; exact IT).
  pose proof (map_record_ok d (skipn i acts) (skipn i ks) (firstn i acts) (firstn i ks) (firstn i buf) (skipn i buf) NE2 IT2 ltac:(rewrite !skipn_length; lia) ltac:(rewrite !skipn_length; lia) ltac:(lia) ltac:(lia) M) as P.
  rewrite LA, firstn_skipn in P.
  pose proof (map_keys_app (d_uels d) (firstn i acts) (firstn i ks) (skipn i acts) (skipn i ks) _ ltac:(lia) M) as MA. rewrite !firstn_skipn in MA.
  pose proof (fail_at_app (d_uels d) (firstn i acts) (firstn i ks) (skipn i acts) (skipn i ks) _ ltac:(lia) M) as FA. rewrite !firstn_skipn, LA in FA.
  rewrite MA. destruct (map_keys (d_uels d) (skipn i acts) (skipn i ks)) as [u2|]; cbn [option_map]; [exact P|]. rewrite FA.
  destruct P as (b & P1 & P2). rewrite !firstn_skipn in P2. eauto.
Qed.

(** The records of a block are in increasing order. *)
Lemma sorted_snoc : forall (l : list (list Z)) x, StronglySorted lex_lt l -> (forall y, last l x = y -> l <> [] -> lex_lt y x) -> StronglySorted lex_lt (l ++ [x]).
Proof.
  induction l as [|a l IH]; intros x S0 H; cbn [app]; [constructor; constructor|]. inversion S0 as [|? ? S1 S2]; subst. constructor.
  - apply IH; [exact S1|]. intros y Q N. apply H; [|discriminate]. destruct l; [contradiction N; reflexivity|exact Q].
  - apply Forall_app. split; [exact S2|]. constructor; [|constructor]. destruct l as [|b l].
    + apply (H a); [reflexivity|discriminate].
    + assert (LT : lex_lt (last (b :: l) x) x) by (apply (H _ eq_refl); discriminate).
      assert (I : In (last (b :: l) x) (b :: l)) by (clear; revert b; induction l as [|c l IH]; intros b; [left; reflexivity|right; apply IH]).
      rewrite Forall_forall in S2. eapply lex_lt_trans; [apply S2; exact I|exact LT].
Qed.
Lemma last_dflt : forall (l : list (list Z)) d e, l <> [] -> last l d = last l e.
Proof. intros [|a l] d e N; [contradiction N; reflexivity|]. rewrite !last_cons_dflt. reflexivity. Qed.
Lemma wr_sorted : forall bo dim mms dsize recs bs last, (1 <= dim <= 20)%nat -> length mms = dim -> bounds_ok mms -> wr_recs bo dim mms recs bs last ->
  Forall (rec_ok mms dsize) recs -> StronglySorted lex_lt (List.map fst recs) /\ last = last_keys (repeat INDEX_INITIAL dim) recs.
Proof.
  intros bo dim mms dsize recs bs last D L B W. induction W as [|recs bs last k vs b last' W IH K]; intros FO; [split; [constructor|reflexivity]|].
  apply Forall_app in FO. destruct FO as [F1 F2]. pose proof (Forall_inv F2) as (R1 & _). cbn [fst] in R1. destruct (IH F1) as [SS EL]. clear IH.
  assert (LL : length last = dim) by (rewrite EL; rewrite <- L; eapply last_keys_length; [eassumption|rewrite L; apply repeat_length]).
  destruct (write_read_done bo dim mms last last (zlen recs) k b last') as (E1 & E2 & _); try assumption.
  { destruct recs as [|r recs] using rev_ind; [right; rewrite EL; apply repeat_Forall; reflexivity|left]. rewrite zlen_app. pose proof (zlen_nonneg recs). cbn. split; [reflexivity|lia]. }
  split; [|subst last'; rewrite last_keys_snoc; reflexivity]. rewrite map_app. apply sorted_snoc; [exact SS|]. cbn [fst]. intros y Q N.
  replace y with last; [exact E2|]. rewrite EL. unfold last_keys. rewrite <- Q. exact (last_dflt _ _ _ N).
Qed.
Lemma link_next : forall dim prev ks, length ks = dim -> (dim = O \/ match prev with None => Forall (fun k => 0 <= k) ks | Some p => lex_lt p ks /\ length p = dim end) ->
  link dim prev ks (dim_first (match prev with None => repeat INDEX_INITIAL dim | Some p => p end) ks).
Proof.
  intros dim prev ks L [->|H].
  - left. split; [reflexivity|]. destruct ks; [|discriminate]. unfold dim_first. destruct prev; [|reflexivity]. destruct l; reflexivity.
  - destruct dim as [|d]; [left; destruct ks; [|discriminate]; split; [reflexivity|]; unfold dim_first; destruct prev; [destruct l|]; reflexivity|]. right. destruct prev as [p|].
    + destruct H as [LT LP]. destruct (lex_lt_first_diff p ks ltac:(lia) LT) as (i & FD & _). destruct (first_diff_lt _ _ _ FD) as (A & _ & C & _). unfold dim_first. rewrite FD. split; [lia|].
      replace (Z.to_nat (Z.of_nat (S i)) - 1)%nat with i by lia. exact C.
    + rewrite <- L, dim_first_initial by exact H. destruct ks as [|k ks]; [discriminate|]. cbn [dim_frst length]. split; [lia|reflexivity].
Qed.
Lemma chained_block : forall dim (recs : list srec) prev, Forall (fun r : srec => length (fst r) = dim /\ Forall (fun k => 0 <= k) (fst r)) recs ->
  (dim = O \/ StronglySorted lex_lt (List.map fst recs)) -> (forall p, prev = Some p -> length p = dim /\ (dim = O \/ Forall (lex_lt p) (List.map fst recs))) ->
  chained dim prev (with_first (match prev with None => repeat INDEX_INITIAL dim | Some p => p end) recs).
Proof.
  intros dim. induction recs as [|[k v] recs IH]; intros prev F SS P; cbn [with_first chained]; [exact I|]. pose proof (Forall_inv F) as [F1 F2]. cbn [fst snd] in *.
  split; [|split; [exact F1|]].
  - apply link_next; [exact F1|]. destruct (Nat.eq_dec dim 0) as [D|D]; [left; exact D|right]. destruct prev as [p|]; [|exact F2]. destruct (P p eq_refl) as [P1 [P2|P2]]; [contradiction|].
    split; [|exact P1]. cbn [List.map] in P2. exact (Forall_inv P2).
  - apply (IH (Some k)); [exact (Forall_inv_tail F)| |].
    + destruct SS as [D|SS]; [left; exact D|right]. cbn [List.map] in SS. inversion SS; assumption.
    + intros p Hp. injection Hp as <-. split; [exact F1|]. destruct SS as [D|SS]; [left; exact D|right]. cbn [List.map fst] in SS. inversion SS; assumption.
Qed.
Lemma block_order : forall z F sy recs, block_at z (z_host z) F sy recs -> (sy_dim sy <= 20)%nat ->
  Forall (fun r : srec => length (fst r) = sy_dim sy /\ Forall (fun k => 0 <= k) (fst r)) recs /\ (sy_dim sy = O \/ StronglySorted lex_lt (List.map fst recs)).
Proof.
  intros z F sy recs (dsize & mms & cnt & bs & last & B1 & B2 & B3 & B4 & B5 & _) D. split.
  - eapply Forall_impl; [|exact B5]. intros r (R & _). split; [apply Forall2_length in R; congruence|].
    clear - R B3. induction R; constructor; inversion B3; subst; [|auto]. unfold in_bounds in H. lia.
  - destruct (Nat.eq_dec (sy_dim sy) 0) as [E|E]; [left; exact E|right]. eapply wr_sorted; try eassumption. lia.
Qed.

(** ** From one record to the next that passes *)

Definition triple := (Z * list Z * list sval)%type.
Fixpoint scan (us : list (str * Z)) (acts : list dact) (todo : list triple) : list triple * option (list Z * triple * list triple) :=
  match todo with
  | [] => ([], None)
  | t :: r => match map_keys us acts (snd (fst t)) with
              | Some u => ([], Some (u, t, r))
              | None => (t :: fst (scan us acts r), snd (scan us acts r))
              end
  end.
Definition value_of (st : gst) (vs : list sval) : list Z := List.map (shown (g_env st) (d_acros (g_dic st))) vs.
Definition noted (neg : list Z -> list Z) (st : gst) (rej : list triple) (e : errs) : errs :=
  fold_left (fun e t => note_dom (neg (snd (fst t))) (value_of st (snd t)) e) rej e.
Definition calm (st : gst) (todo : list triple) : Prop := e_nextacr (g_env st) <= 0 \/ Forall (fun t => Forall plain (snd t)) todo.

(** What stays the same, but for the errors. *)
Definition kept_with (e : errs) (a b : gst) : Prop := kept (upd_err (fun _ => e) a) b /\ d_status (g_dic b) = d_status (g_dic a).
Lemma kept_with_self : forall a, kept_with (g_err a) a a.
Proof. intros []. split; [constructor; try reflexivity; apply same_dic_refl|reflexivity]. Qed.
Lemma kept_with_of : forall a b, kept a b -> kept_with (g_err a) a b.
Proof. intros a b K. split; [destruct K; constructor; assumption|]. exact (proj1 (proj2 (proj2 (proj2 (proj2 (proj2 (proj2 (proj2 (same_dic_parts _ _ (kp_dic _ _ K)))))))))). Qed.
Lemma kept_with_err : forall a b, kept_with (g_err b) a b -> forall e, kept_with e a (upd_err (fun _ => e) b).
Proof. intros a b [K X] e. split; [destruct K; constructor; try assumption; reflexivity|exact X]. Qed.
Lemma kept_with_trans : forall x y a b c, kept_with x a b -> kept_with y b c -> kept_with y a c.
Proof.
  intros x y a b c [K1 X1] [K2 X2]. split; [|congruence]. destruct K1, K2. constructor; cbn in *; try congruence. eapply same_dic_trans; eassumption.
Qed.
Lemma kept_with_value : forall e a b vs, kept_with e a b -> value_of b vs = value_of a vs.
Proof. intros e a b vs [K _]. unfold value_of. rewrite (kp_env _ _ K). destruct (same_dic_parts _ _ (kp_dic _ _ K)) as (_ & _ & -> & _). reflexivity. Qed.
Lemma kept_with_uels : forall e a b, kept_with e a b -> d_uels (g_dic b) = d_uels (g_dic a).
Proof. intros e a b [K _]. destruct (same_dic_parts _ _ (kp_dic _ _ K)) as (-> & _). reflexivity. Qed.
Lemma noted_kept : forall e a b neg rej x, kept_with e a b -> noted neg b rej x = noted neg a rej x.
Proof.
  intros e a b neg rej x K. unfold noted. revert x. induction rej as [|t rej IH]; intros x; [reflexivity|]. cbn [fold_left]. rewrite (kept_with_value _ _ _ _ K). apply IH.
Qed.

Lemma noted_tot : forall neg st rej x, r_tot (noted neg st rej x) = r_tot x.
Proof.
  intros neg st rej. unfold noted. induction rej as [|t rej IH]; intros x; [reflexivity|]. cbn [fold_left]. rewrite IH. unfold note_dom. destruct (r_list x); [|reflexivity].
  destruct (11 <=? zlen l); [reflexivity|]. destruct (some_unseen _ _ _); reflexivity.
Qed.
Lemma unchanged : forall st, upd_wrk (set_w_added (w_added (g_wrk st))) (set_g_dic (g_dic st) st) = st.
Proof. intros [? ? ? ? ? ? [] ?]. reflexivity. Qed.

(** ** Order *)

Definition increasing (us : list (str * Z)) : Prop := forall i j, i < j -> 0 <= num us i -> 0 <= num us j -> num us i < num us j.
Definition status_inv (d : dic) : Prop := forall s, d_status d = Some s -> s <> map_unsorted -> increasing (d_uels d).

Lemma zn_nil : forall {A} i, @znth A [] i = None.
Proof. intros A i. unfold znth. destruct (i <? 0); [reflexivity|]. destruct (Z.to_nat i); reflexivity. Qed.
Lemma znth_cons : forall {A} (x : A) l i v, znth (x :: l) i = Some v -> (i = 0 /\ v = x) \/ (0 < i /\ znth l (i - 1) = Some v).
Proof.
  intros A x l i v H. pose proof (znth_Some _ _ _ H) as R. destruct (Z.eq_dec i 0) as [->|N]; [left; cbn in H; split; congruence|right]. split; [lia|].
  unfold znth in *. destruct (Z.ltb_spec i 0); [discriminate|]. destruct (Z.ltb_spec (i - 1) 0); [lia|]. replace (Z.to_nat i) with (S (Z.to_nat (i - 1))) in H by lia. exact H.
Qed.
Lemma status_from_sorted : forall l c lv acc, status_from l c lv acc <> map_unsorted -> -1 <= lv ->
  (forall i v, znth l i = Some v -> 0 <= v -> lv < v) /\ forall i j v w, i < j -> znth l i = Some v -> znth l j = Some w -> 0 <= v -> 0 <= w -> v < w.
Proof.
  induction l as [|x l IH]; intros c lv acc H LV; cbn [status_from] in H.
  - split; intros; rewrite zn_nil in *; discriminate.
  - assert (CASE : (x < 0 /\ exists c' a', status_from l c' lv a' <> map_unsorted) \/ (lv < x /\ exists c' a', status_from l c' x a' <> map_unsorted)).
    { destruct (Z.ltb_spec x 0); [left; split; [assumption|eauto]|]. destruct (Z.gtb_spec x lv); [right; split; [lia|eauto]|contradiction H; reflexivity]. }
    destruct CASE as [[NX (c' & a' & S1)]|[GX (c' & a' & S1)]]; destruct (IH _ _ _ S1 ltac:(lia)) as [A B]; (split; [intros i v E V|intros i j v w L E1 E2 V W]).
    + apply znth_cons in E. destruct E as [[-> ->]|[_ E]]; [lia|exact (A _ _ E V)].
    + apply znth_cons in E1, E2. destruct E1 as [[-> ->]|[I1 E1]]; [lia|]. destruct E2 as [[-> ->]|[I2 E2]]; [lia|]. apply (B (i - 1) (j - 1)); auto; lia.
    + apply znth_cons in E. destruct E as [[-> ->]|[_ E]]; [lia|]. specialize (A _ _ E V). lia.
    + apply znth_cons in E1, E2. destruct E2 as [[-> ->]|[I2 E2]]; [destruct E1 as [[-> _]|[? _]]; lia|]. destruct E1 as [[-> ->]|[I1 E1]]; [exact (A _ _ E2 W)|]. apply (B (i - 1) (j - 1)); auto; lia.
Qed.
Lemma map_status_increasing : forall d, status_inv d -> fst (map_status d) <> map_unsorted -> increasing (d_uels d).
Proof.
  intros d SI H. unfold map_status in H. destruct (d_status d) as [s|] eqn:E; [exact (SI s E H)|]. cbn [fst] in H. destruct (status_from_sorted _ _ _ _ H ltac:(lia)) as [_ B].
  intros i j L V W. unfold num in *. destruct (znth (d_uels d) (i - 1)) as [e1|] eqn:E1; [|lia]. destruct (znth (d_uels d) (j - 1)) as [e2|] eqn:E2; [|lia].
  apply (B (i - 1) (j - 1)); try lia; rewrite znth_map; [rewrite E1|rewrite E2]; reflexivity.
Qed.

(** The images of indices keep their order. *)
Definition mono (us : list (str * Z)) (a : dact) : Prop := forall i j u v, i < j -> act_map us a i = Some u -> act_map us a j = Some v -> u < v.
Lemma map_keys_mono : forall us acts, Forall (mono us) acts -> forall a b u v, lex_lt a b -> length a = length acts -> length b = length acts ->
  map_keys us acts a = Some u -> map_keys us acts b = Some v -> lex_lt u v.
Proof.
  intros us acts F. induction F as [|x acts M F IH]; intros [|i a] [|j b] u v L LA LB E1 E2; try discriminate; try contradiction.
  cbn [map_keys] in E1, E2. destruct (act_map us x i) as [p|] eqn:A1; [|discriminate]. destruct (map_keys us acts a) as [r|] eqn:B1; [|discriminate]. injection E1 as <-.
  destruct (act_map us x j) as [q|] eqn:A2; [|discriminate]. destruct (map_keys us acts b) as [t|] eqn:B2; [|discriminate]. injection E2 as <-. cbn [lex_lt] in *. destruct L as [L|[-> L]].
  - left. exact (M _ _ _ _ L A1 A2).
  - right. split; [congruence|]. apply (IH a b); auto; cbn in LA, LB; lia.
Qed.
Lemma mono_unmapped : forall us, mono us dm_unmapped.
Proof. intros us i j u v L A B. cbn in A, B. congruence. Qed.
Lemma mono_strict : forall us, increasing us -> mono us dm_strict.
Proof. intros us I i j u v L A B. cbn in A, B. destruct (Z.leb_spec 0 (num us i)); [|discriminate]. destruct (Z.leb_spec 0 (num us j)); [|discriminate]. injection A as <-. injection B as <-. auto. Qed.
Definition filter_order (us : list (str * Z)) (f : filt) : Prop := forall i j, i < j -> in_filter f (num us i) = true -> in_filter f (num us j) = true -> num us i < num us j.
Lemma mono_filter : forall us f, filter_order us f -> mono us (dm_filter f).
Proof. intros us f I i j u v L A B. cbn in A, B. destruct (in_filter f (num us i)) eqn:E1; [|discriminate]. destruct (in_filter f (num us j)) eqn:E2; [|discriminate]. injection A as <-. injection B as <-. auto. Qed.
Lemma increasing_filter : forall us f, increasing us -> filter_order us f.
Proof. intros us f I i j L A B. apply I; [exact L| |]; unfold in_filter in A, B; rewrite !Bool.andb_true_iff in A, B; lia. Qed.

(** When the records are passed on as they come. *)
Definition keeps_order (s : mstat) (a : dact) : Prop :=
  match a with dm_unmapped => True | dm_strict => s <> map_unsorted | dm_filter f => s <> map_unsorted \/ fl_sorted f = true | dm_expand => False end.
Lemma will_be_sorted_ok : forall l doms acts first d, domain_actions l doms = Some acts -> Forall (fun m => m <> -1) doms ->
  exists b d', will_be_sorted first doms acts d = Done (b, d') /\ (d' = d \/ d' = snd (map_status d)) /\ (b = true -> Forall (keeps_order (fst (map_status d))) acts).
Proof.
  intros l. induction doms as [|m doms IH]; intros acts first d DA F; cbn [domain_actions] in DA.
  - injection DA as <-. exists true, d. cbn. auto.
  - pose proof (Forall_inv F) as NM. apply Forall_inv_tail in F. cbv beta in NM.
    destruct (if m =? -2 then Some dm_unmapped else if m =? -1 then Some dm_expand else if m =? 0 then Some dm_strict else match find_filter l m with Some f => Some (dm_filter f) | None => None end) as [a|] eqn:EA; [|discriminate].
    destruct (domain_actions l doms) as [as_|] eqn:ED; [|discriminate]. injection DA as <-. cbn [will_be_sorted].
    assert (MS : fst (map_status (snd (map_status d))) = fst (map_status d) /\ snd (map_status (snd (map_status d))) = snd (map_status d)).
    { unfold map_status. destruct (d_status d) eqn:E; cbn [snd fst]; [rewrite E; auto|]. cbn [d_status set_d_status]. auto. }
    destruct MS as [MS1 MS2].
    destruct (Z.eqb_spec m (-2)) as [->|N2].
    + injection EA as <-. destruct (IH _ false d eq_refl F) as (b & d' & E & C & K). exists b, d'. split; [exact E|]. split; [exact C|]. intros B. constructor; [exact I|exact (K B)].
    + destruct (Z.eqb_spec m (-1)); [contradiction|]. destruct (IH _ false (snd (map_status d)) eq_refl F) as (b & d' & E & C & K). rewrite MS1 in K. rewrite MS2 in C.
      assert (C' : d' = d \/ d' = snd (map_status d)) by tauto.
      destruct (map_status d) as [s d1] eqn:EM. cbn [fst snd] in *.
      destruct (Z.eqb_spec m 0) as [->|N0].
      * injection EA as <-. destruct (Z.eqb_spec (mstat_nr s) 1) as [Q|Q].
        -- exists false, d1. split; [reflexivity|]. split; [right; reflexivity|discriminate].
        -- exists b, d'. split; [exact E|]. split; [exact C'|]. intros B. constructor; [|exact (K B)]. cbn. intros ->. apply Q. reflexivity.
      * destruct (find_filter l m) as [f|]; [|discriminate]. injection EA as <-. destruct (Z.leb_spec 2 (mstat_nr s)) as [Q|Q].
        -- exists b, d'. split; [exact E|]. split; [exact C'|]. intros B. constructor; [|exact (K B)]. cbn. left. intros ->. cbn in Q. lia.
        -- destruct (fl_sorted f) eqn:FS.
           ++ exists b, d'. split; [exact E|]. split; [exact C'|]. intros B. constructor; [|exact (K B)]. cbn. right. exact FS.
           ++ exists false, d1. split; [reflexivity|]. split; [right; reflexivity|discriminate].
Qed.

Section Z.
Context (z : zlib).

Lemma reading_same : forall F n sy sc todo a b, reading z F n sy sc todo a -> g_fil b = g_fil a -> d_maptext (g_dic b) = d_maptext (g_dic a) ->
  d_names (g_dic b) = d_names (g_dic a) ->
  w_univ (g_wrk b) = w_univ (g_wrk a) -> w_cur (g_wrk b) = w_cur (g_wrk a) -> w_dim (g_wrk b) = w_dim (g_wrk a) -> w_dsize (g_wrk b) = w_dsize (g_wrk a) ->
  w_mms (g_wrk b) = w_mms (g_wrk a) -> w_last (g_wrk b) = w_last (g_wrk a) -> reading z F n sy sc todo b.
Proof.
  intros F n sy sc todo a b [] E1 E2 E3 E4 E5 E6 E7 E8 E9. constructor; rewrite ?E1, ?E2, ?E4, ?E5, ?E6, ?E7, ?E8, ?E9; try assumption.
  unfold get_sym in *. rewrite E3. assumption.
Qed.
Lemma reading_err : forall F n sy sc todo st f, reading z F n sy sc todo st -> reading z F n sy sc todo (upd_err f st).
Proof. intros. eapply reading_same; try eassumption; reflexivity. Qed.

Lemma reading_next : forall F n sy af ks vs todo st, reading z F n sy false ((af, ks, vs) :: todo) st -> calm st ((af, ks, vs) :: todo) ->
  exists st1, reading z F n sy false todo st1 /\ w_last (g_wrk st1) = ks /\ kept_with (g_err st) st st1 /\ g_dic st1 = g_dic st /\ g_err st1 = g_err st /\ calm st1 todo /\
    do_read z st = Done (Some (af, value_of st vs), st1).
Proof.
  intros F n sy af ks vs todo st R C. destruct (do_read_step z F n sy af ks vs todo st R) as (st1 & R1 & L & E1 & E2 & E3 & E4 & E5 & E6 & (W1 & W2 & W3 & W4 & W5) & DR).
  exists st1. split; [exact R1|]. split; [exact L|].
  assert (WD : w_dim (g_wrk st1) = w_dim (g_wrk st)) by (rewrite (rg_dim _ _ _ _ _ _ _ R1), (rg_dim _ _ _ _ _ _ _ R); reflexivity).
  split; [split; [constructor; try assumption; rewrite E3; apply same_dic_refl|rewrite E3; reflexivity]|].
  split; [exact E3|]. split; [exact E4|]. split; [destruct C as [C|C]; [left; rewrite E2; exact C|right; exact (Forall_inv_tail C)]|].
  rewrite DR, read_values_quiet.
  - unfold value_of. rewrite E2, E3. reflexivity.
  - destruct C as [C|C]; [left; rewrite E2; exact C|right; exact (Forall_inv C)].
Qed.

Section Sym.
Context (F : list Z) (n : Z) (sy : sym) (us : list (str * Z)) (acts : list dact)
  (D20 : (sy_dim sy <= 20)%nat) (NE : no_expand acts) (LA : length acts = sy_dim sy).

(** The state in which records are mapped one after the other. *)
Record onway (prev : option (list Z)) (todo : list triple) (st : gst) : Prop := mkOnway {
  ow_read : reading z F n sy false todo st;
  ow_calm : calm st todo;
  ow_doms : w_doms (g_wrk st) = acts;
  ow_uels : d_uels (g_dic st) = us;
  ow_in : Forall (fun t : triple => Forall (in_table us) (snd (fst t))) todo;
  ow_chain : chained (sy_dim sy) prev todo
}.

Lemma onway_next : forall prev af ks vs todo st, onway prev ((af, ks, vs) :: todo) st ->
  exists st1, onway (Some ks) todo st1 /\ w_last (g_wrk st1) = ks /\ kept_with (g_err st) st st1 /\ g_dic st1 = g_dic st /\ g_err st1 = g_err st /\
    do_read z st = Done (Some (af, value_of st vs), st1) /\ link (sy_dim sy) prev ks af /\ length ks = sy_dim sy /\ Forall (in_table us) ks.
Proof.
  intros prev af ks vs todo st [R C WD U I CH]. destruct (reading_next _ _ _ _ _ _ _ _ R C) as (st1 & R1 & L & K & E & EE & C1 & DR).
  cbn [chained fst snd] in CH. destruct CH as (CH1 & CH2 & CH3). exists st1.
  split; [constructor; try assumption; [rewrite (kp_doms _ _ (proj1 K)); exact WD|rewrite E; exact U|exact (Forall_inv_tail I)]|].
  pose proof (Forall_inv I). cbn [fst snd] in *. auto 10.
Qed.
Lemma onway_err : forall prev todo st f, onway prev todo st -> onway prev todo (upd_err f st).
Proof. intros prev todo st f []. constructor; try assumption. apply reading_err. assumption. Qed.
Lemma onway_dim : forall prev todo st, onway prev todo st -> w_dim (g_wrk st) = sy_dim sy.
Proof. intros prev todo st []. eapply rg_dim. eassumption. Qed.

Lemma map_loop_ok : forall todo fuel prev fi buf st, onway prev todo st -> (length todo < fuel)%nat -> length buf = sy_dim sy -> (fi <= sy_dim sy)%nat ->
  (sy_dim sy = O \/ 1 <= fi)%nat -> (forall p, prev = Some p -> length p = length acts /\ buf_ok us acts p fi buf) ->
  exists st1, map_loop z fuel fi buf false st = Done (option_map (fun x => (fst (fst x), value_of st (snd (snd (fst x))), false)) (snd (scan us acts todo)), st1) /\
    kept_with (noted (neg_all us acts) st (fst (scan us acts todo)) (g_err st)) st st1 /\
    match snd (scan us acts todo) with Some (_, t, rest) => onway (Some (snd (fst t))) rest st1 | None => True end.
Proof.
  induction todo as [|[[af ks] vs] todo IH]; intros [|fuel] prev fi buf st OW FU LB LF F1 B; cbn [length] in FU; try lia; cbn [map_loop].
  - destruct (source_end z F n st) as (st1 & E & K & _).
    { apply (Src_block z F n sy []); [exact (ow_read _ _ _ OW)|exact D20]. }
    rewrite E. cbn [obind scan fst snd option_map]. exists st1. split; [reflexivity|]. split; [|exact I]. exact (kept_with_of _ _ K).
  - destruct (onway_next _ _ _ _ _ _ OW) as (st1 & O1 & L & K & ED & EE & DR & LK & LKS & IT). rewrite DR. cbn [obind]. cbv zeta. rewrite L, (ow_doms _ _ _ O1).
    assert (CA : forall i, i = (Nat.min fi (Z.to_nat af) - 1)%nat -> map_keys us (firstn i acts) (firstn i ks) = Some (firstn i buf)).
    { apply (carry us acts prev ks af fi buf); [rewrite LA; exact LK|lia|lia|lia|exact B]. }
    assert (SP : match map_keys us acts ks with
                 | Some u => (match Nat.min fi (Z.to_nat af) with O => Done (SKeys buf false) | S i => step_keys (g_dic st1) (skipn i acts) (skipn i ks) i buf false end) = Done (SKeys u false)
                 | None => exists b, (match Nat.min fi (Z.to_nat af) with O => Done (SKeys buf false) | S i => step_keys (g_dic st1) (skipn i acts) (skipn i ks) i buf false end) = Done (SFail b false (fail_at us acts ks)) /\
                     buf_ok us acts ks (fail_at us acts ks) b
                 end).
    { destruct (Nat.min fi (Z.to_nat af)) as [|i] eqn:MI.
      - assert (D0 : sy_dim sy = O) by (destruct LK as [[D _]|[A _]]; [exact D|lia]). 
        assert (A0 : acts = []) by (apply length_zero_iff_nil; congruence). assert (B0 : buf = []) by (apply length_zero_iff_nil; congruence).
        rewrite A0, B0. cbn [map_keys]. reflexivity.
      - specialize (CA i ltac:(lia)). rewrite <- (ow_uels _ _ _ O1) in CA, IT |- *. apply step_whole; try assumption; lia. }
    cbn [scan fst snd]. destruct (map_keys us acts ks) as [u|] eqn:MK.
    + rewrite SP. cbn [obind snd fst option_map]. exists st1. split; [reflexivity|]. split; [|exact O1]. exact K.
    + destruct SP as (b & SP & BO). rewrite SP. cbn [obind].
      assert (RK : reject_keys (g_dic st1) acts ks = Done (Some (neg_all us acts ks))).
      { rewrite <- (ow_uels _ _ _ O1) in IT |- *. apply reject_keys_ok; try assumption. lia. }
      rewrite RK. cbn [obind]. change (add_dom_error (neg_all us acts ks) (value_of st vs) st1) with (upd_err (note_dom (neg_all us acts ks) (value_of st vs)) st1).
      pose proof (fail_at_range _ _ _ MK) as FR. rewrite LA in FR.
      destruct (IH fuel (Some ks) (fail_at us acts ks) b (upd_err (note_dom (neg_all us acts ks) (value_of st vs)) st1)) as (st2 & E2 & K2 & X2).
      * apply onway_err. exact O1.
      * lia.
      * destruct BO as (BL & _). congruence.
      * lia.
      * lia.
      * intros p H. injection H as <-. split; [congruence|exact BO].
      * exists st2. cbn [fst snd].
        assert (KV : kept_with (note_dom (neg_all us acts ks) (value_of st vs) (g_err st)) st (upd_err (note_dom (neg_all us acts ks) (value_of st vs)) st1)).
        { rewrite <- EE in K. pose proof (kept_with_err _ _ K (note_dom (neg_all us acts ks) (value_of st vs) (g_err st1))) as X. rewrite <- EE. exact X. }
        split; [|split; [|exact X2]].
        -- rewrite E2. f_equal. f_equal. destruct (snd (scan us acts todo)) as [[[u t] r]|]; [|reflexivity]. cbn [option_map fst snd]. rewrite (kept_with_value _ _ _ _ KV). reflexivity.
        -- unfold noted in *. cbn [fold_left fst snd]. pose proof (kept_with_trans _ _ _ _ _ KV K2) as T.
           fold (noted (neg_all us acts) st (fst (scan us acts todo)) (note_dom (neg_all us acts ks) (value_of st vs) (g_err st))).
           rewrite <- (noted_kept _ _ _ _ _ _ KV). change (g_err (upd_err ?f ?s)) with (f (g_err s)) in T. rewrite EE in T. exact T.
Qed.

Definition onway_cur (st : gst) : Prop :=
  match w_cur (g_wrk st) with
  | CNull => Done None
  | CDangling => UB
  | CSym m => match get_sym (g_dic st) m with Some s => Done (if sy_scalar s then Some (m, s) else None) | None => UB end
  end = Done None.
Lemma not_scalar : forall prev todo st, onway prev todo st ->
  match w_cur (g_wrk st) with
  | CNull => Done None
  | CDangling => UB
  | CSym m => match get_sym (g_dic st) m with Some s => Done (if sy_scalar s then Some (m, s) else None) | None => UB end
  end = Done None.
Proof.
  intros prev todo st OW. rewrite (rg_cur _ _ _ _ _ _ _ (ow_read _ _ _ OW)). destruct (rg_sym _ _ _ _ _ _ _ (ow_read _ _ _ OW)) as (s & G & _ & _ & S1). rewrite G, S1. reflexivity.
Qed.

(** ** All the records at once *)

Definition passing (st : gst) (todo : list triple) : list (list Z * list Z) :=
  flat_map (fun t => match map_keys us acts (snd (fst t)) with Some u => [(u, value_of st (snd t))] | None => [] end) todo.
Definition failing (todo : list triple) : list triple := filter (fun t => match map_keys us acts (snd (fst t)) with Some _ => false | None => true end) todo.

Lemma passing_kept : forall e a b todo, kept_with e a b -> passing b todo = passing a todo.
Proof.
  intros e a b todo K. unfold passing. apply flat_map_ext. intros t. destruct (map_keys us acts (snd (fst t))); [|reflexivity]. rewrite (kept_with_value _ _ _ _ K). reflexivity.
Qed.

Lemma read_all_ok : forall todo fuel prev fi el items st, onway prev todo st -> (length todo < fuel)%nat -> length el = sy_dim sy -> (fi <= sy_dim sy)%nat ->
  (sy_dim sy = O \/ 1 <= fi)%nat -> (forall p, prev = Some p -> length p = length acts /\ buf_ok us acts p fi el) ->
  exists st1, read_all_mapped z fuel fi el im_new false true items st = Done (items ++ passing st todo, true, st1) /\
    kept_with (noted (neg_first us acts) st (failing todo) (g_err st)) st st1 /\ onway_cur st1.
Proof.
  induction todo as [|[[af ks] vs] todo IH]; intros [|fuel] prev fi el items st OW FU LB LF F1 B; cbn [length] in FU; try lia; cbn [read_all_mapped].
  - destruct (do_read_end z F n sy st (ow_read _ _ _ OW) D20) as (s' & ops' & RO & DR).
    rewrite DR. cbn [obind]. eexists. cbn [passing flat_map]. rewrite app_nil_r. split; [reflexivity|]. split; [|exact (not_scalar _ _ _ OW)].
    apply kept_with_of. constructor; try reflexivity; apply same_dic_refl.
  - destruct (onway_next _ _ _ _ _ _ OW) as (st1 & O1 & L & K & ED & EE & DR & LK & LKS & IT). rewrite DR. cbn [obind]. cbv zeta. rewrite L, (ow_doms _ _ _ O1).
    set (i := (Nat.min fi (Z.to_nat af) - 1)%nat).
    assert (CA : map_keys us (firstn i acts) (firstn i ks) = Some (firstn i el)).
    { apply (carry us acts prev ks af fi el); [rewrite LA; exact LK|lia|lia|lia|exact B|reflexivity]. }
    assert (SP : match map_keys us acts ks with
                 | Some u => map_record (g_dic st1) (skipn i acts) (skipn i ks) i el im_new false = Done (MOk u im_new false)
                 | None => exists b, map_record (g_dic st1) (skipn i acts) (skipn i ks) i el im_new false = Done (MErr b im_new false (fail_at us acts ks)) /\
                     buf_ok us acts ks (fail_at us acts ks) b
                 end).
    { rewrite <- (ow_uels _ _ _ O1) in CA, IT |- *. apply map_whole; try assumption; unfold i; lia. }
    unfold passing, failing, noted. cbn [flat_map filter fst snd]. destruct (map_keys us acts ks) as [u|] eqn:MK.
    + rewrite SP. cbn [obind].
      replace (upd_wrk (set_w_added (w_added (g_wrk st1))) (set_g_dic (g_dic st1) st1)) with st1 by (symmetry; apply unchanged).
      rewrite (onway_dim _ _ _ O1).
      destruct (IH fuel (Some ks) (sy_dim sy) u (items ++ [(u, value_of st vs)]) st1 O1) as (st2 & E2 & K2 & C2).
      * lia.
      * rewrite (map_keys_length _ _ _ _ MK); lia.
      * lia.
      * lia.
      * intros p H. injection H as <-. split; [congruence|]. split; [rewrite (map_keys_length _ _ _ _ MK); lia|]. split; [lia|]. apply map_keys_firstn. exact MK.
      * exists st2. split; [|split; [|exact C2]].
        -- rewrite E2, <- app_assoc, (passing_kept _ _ _ _ K). reflexivity.
        -- pose proof (kept_with_trans _ _ _ _ _ K K2) as T. rewrite (noted_kept _ _ _ _ _ _ K), EE in T. exact T.
    + destruct SP as (b & SP & BO). rewrite SP. cbn [obind].
      assert (NB : existsb (fun k => k <? 0) (skipn (S (fail_at us acts ks)) ks) = false).
      { apply not_true_is_false. intros H. apply existsb_exists in H. destruct H as (x & I & X).
        pose proof (Forall_skipn_all _ (S (fail_at us acts ks)) _ IT) as IT2. rewrite Forall_forall in IT2. destruct (IT2 x I). lia. }
      rewrite NB. cbn [negb andb]. rewrite (neg_at_first us acts ks) by (try assumption; lia).
      change (add_dom_error (neg_first us acts ks) (value_of st vs) st1) with (upd_err (note_dom (neg_first us acts ks) (value_of st vs)) st1).
      pose proof (fail_at_range _ _ _ MK) as FR. rewrite LA in FR.
      destruct (IH fuel (Some ks) (fail_at us acts ks) b items (upd_err (note_dom (neg_first us acts ks) (value_of st vs)) st1)) as (st2 & E2 & K2 & C2).
      * apply onway_err. exact O1.
      * lia.
      * destruct BO as (BL & _). congruence.
      * lia.
      * lia.
      * intros p H. injection H as <-. split; [congruence|exact BO].
      * exists st2.
        assert (KV : kept_with (note_dom (neg_first us acts ks) (value_of st vs) (g_err st)) st (upd_err (note_dom (neg_first us acts ks) (value_of st vs)) st1)).
        { rewrite <- EE in K. pose proof (kept_with_err _ _ K (note_dom (neg_first us acts ks) (value_of st vs) (g_err st1))) as X. rewrite <- EE. exact X. }
        split; [|split; [|exact C2]].
        -- rewrite E2, (passing_kept _ _ _ _ KV). reflexivity.
        -- cbn [fold_left fst snd]. pose proof (kept_with_trans _ _ _ _ _ KV K2) as T.
           change (kept_with (noted (neg_first us acts) st (failing todo) (note_dom (neg_first us acts ks) (value_of st vs) (g_err st))) st st2).
           rewrite <- (noted_kept _ _ _ _ _ _ KV). change (g_err (upd_err ?f ?s)) with (f (g_err s)) in T. rewrite EE in T. exact T.
Qed.


(** ** gdxDataReadMap, again and again *)

Lemma scan_spec : forall st todo,
  match scan us acts todo with
  | (rej, None) => passing st todo = [] /\ failing todo = rej
  | (rej, Some (u, t, rest)) => map_keys us acts (snd (fst t)) = Some u /\ passing st todo = (u, value_of st (snd t)) :: passing st rest /\
      failing todo = rej ++ failing rest /\ (length rest < length todo)%nat /\ In t todo
  end.
Proof.
  intros st. induction todo as [|t todo IH]; cbn [scan]; [split; reflexivity|]. unfold passing, failing. cbn [flat_map filter].
  destruct (map_keys us acts (snd (fst t))) as [u|] eqn:E.
  - cbn [app length]. split; [exact E|]. split; [reflexivity|]. split; [reflexivity|]. split; [lia|left; reflexivity].
  - destruct (scan us acts todo) as [rej [[[u t'] rest]|]]; cbn [fst snd].
    + destruct IH as (I1 & I2 & I3 & I4 & I5). split; [exact I1|]. split; [exact I2|]. split; [cbn [app]; f_equal; exact I3|]. split; [cbn [length]; lia|right; exact I5].
    + destruct IH as (I1 & I2). split; [exact I1|]. f_equal. exact I2.
Qed.

(** What stays the same while a symbol is read in user numbers; the errors become [e]. *)
Record mapped (e : errs) (a b : gst) : Prop := mkMapped {
  md_mode : g_mode b = g_mode a;
  md_aft : g_aft b = g_aft a;
  md_env : g_env b = g_env a;
  md_err : g_err b = e;
  md_sli : g_sli b = g_sli a;
  md_dic : same_dic (g_dic a) (g_dic b);
  md_dim : w_dim (g_wrk b) = w_dim (g_wrk a);
  md_doms : w_doms (g_wrk b) = w_doms (g_wrk a);
  md_added : w_added (g_wrk b) = w_added (g_wrk a)
}.
Lemma mapped_self : forall a, mapped (g_err a) a a.
Proof. intros a. constructor; try reflexivity. apply same_dic_refl. Qed.
Lemma mapped_trans : forall x y a b c, mapped x a b -> mapped y b c -> mapped y a c.
Proof. intros x y a b c [] []. constructor; try congruence. eapply same_dic_trans; eassumption. Qed.
Lemma kept_mapped : forall e a b, kept_with e a b -> mapped e a b.
Proof. intros e a b [[] _]. constructor; assumption. Qed.
Lemma mapped_value : forall e a b vs, mapped e a b -> value_of b vs = value_of a vs.
Proof. intros e a b vs K. unfold value_of. rewrite (md_env _ _ _ K). destruct (same_dic_parts _ _ (md_dic _ _ _ K)) as (_ & _ & -> & _). reflexivity. Qed.
Lemma mapped_passing : forall e a b todo, mapped e a b -> passing b todo = passing a todo.
Proof. intros e a b todo K. unfold passing. apply flat_map_ext. intros t. destruct (map_keys us acts (snd (fst t))); [|reflexivity]. rewrite (mapped_value _ _ _ _ K). reflexivity. Qed.
Lemma mapped_noted : forall e a b neg rej x, mapped e a b -> noted neg b rej x = noted neg a rej x.
Proof. intros e a b neg rej x K. unfold noted. revert x. induction rej as [|t rej IH]; intros x; [reflexivity|]. cbn [fold_left]. rewrite (mapped_value _ _ _ _ K). apply IH. Qed.

(** The answers of gdxDataReadMap are [l], and [0] follows; [buf] is the array of the caller,
    who leaves the indices in it from one call to the next. *)
Fixpoint map_reads (buf : list Z) (st : gst) (l : list (Z * list Z * list Z)) (P : gst -> Prop) : Prop :=
  match l with
  | [] => exists st', exec z (gdxDataReadMap buf) st = Done (ret 0, st') /\ P st'
  | (af, keys, vals) :: r => exists st1, exec z (gdxDataReadMap buf) st = Done (ret_iv 1 (af :: keys) vals, st1) /\
      forall buf', firstn (length keys) buf' = keys -> map_reads buf' st1 r P
  end.

Lemma first_change_spec : forall keys prev i, first_change keys prev i = if change_at prev keys =? 0 then 0 else change_at prev keys + i - 1.
Proof.
  induction keys as [|k keys IH]; intros [|p prev] i; cbn [first_change change_at]; try reflexivity.
  destruct (k =? p); [|change (1 =? 0) with false; cbv iota; lia]. rewrite IH. destruct (Z.eqb_spec (change_at prev keys) 0) as [E|N]; [reflexivity|].
  assert (0 <= change_at prev keys).
  { clear. revert prev. induction keys as [|k keys IH]; intros [|p prev]; cbn [change_at]; try lia. specialize (IH prev). destruct (k =? p); [|lia]. destruct (Z.eqb_spec (change_at prev keys) 0); lia. }
  destruct (Z.eqb_spec (change_at prev keys + 1) 0); lia.
Qed.
Lemma change_at_app : forall keys a b, length a = length keys -> change_at (a ++ b) keys = change_at a keys.
Proof. induction keys as [|k keys IH]; intros [|p a] b L; try discriminate; [destruct b; reflexivity|]. cbn [app change_at]. rewrite IH by (cbn in L; lia). reflexivity. Qed.

(** The last record returned, as the object remembers it. *)
Definition remembered (pu : option (list Z)) (st : gst) : Prop :=
  firstn (sy_dim sy) (w_prev (g_wrk st)) = match pu with None => repeat (-1) (sy_dim sy) | Some u => u end \/ sy_dim sy = O.
Lemma note_keys_ok : forall pu keys st, remembered pu st -> length keys = sy_dim sy -> Forall (fun k => 0 <= k) keys -> (forall u, pu = Some u -> length u = sy_dim sy) ->
  note_keys keys st = (dim_frst pu keys, upd_wrk (set_w_prev (keys ++ skipn (length keys) (w_prev (g_wrk st)))) st) /\
  remembered (Some keys) (upd_wrk (set_w_prev (keys ++ skipn (length keys) (w_prev (g_wrk st)))) st).
Proof.
  intros pu keys st R L NN LU. split.
  - unfold note_keys. cbv zeta. f_equal. destruct R as [R|R].
    + rewrite <- (firstn_skipn (sy_dim sy) (w_prev (g_wrk st))), R, first_change_spec, change_at_app by (destruct pu as [u|]; [rewrite (LU u eq_refl); lia|rewrite repeat_length; lia]).
      destruct pu as [u|]; cbn [dim_frst].
      * destruct (Z.eqb_spec (change_at u keys) 0); lia.
      * rewrite <- L. destruct keys as [|k keys]; [reflexivity|]. cbn [length repeat change_at]. pose proof (Forall_inv NN) as K0. cbv beta in K0. destruct (Z.eqb_spec k (-1)); [lia|reflexivity].
    + rewrite R in L, LU. destruct keys; [|discriminate]. cbn. destruct pu as [u|]; [|reflexivity]. specialize (LU u eq_refl). destruct u; [reflexivity|discriminate].
  - left. cbn [g_wrk upd_wrk upd set_g_wrk w_prev set_w_prev]. rewrite firstn_app, <- L, firstn_all, Nat.sub_diag, firstn_O, app_nil_r. reflexivity.
Qed.

Lemma map_keys_nonneg : forall acts0 ks u, map_keys us acts0 ks = Some u -> Forall (in_table us) ks -> Forall (fun k => 0 <= k) u.
Proof.
  induction acts0 as [|a acts0 IH]; intros [|k ks] u H IT; cbn [map_keys] in H; try (injection H as <-; constructor).
  destruct (act_map us a k) as [v|] eqn:AV; [|discriminate]. destruct (map_keys us acts0 ks) as [r|] eqn:E; [|discriminate]. injection H as <-.
  constructor; [|exact (IH ks r E (Forall_inv_tail IT))]. pose proof (Forall_inv IT) as [I1 I2]. destruct a as [| |f|]; cbn [act_map] in AV; [| | |discriminate].
  - injection AV as <-. lia.
  - destruct (Z.leb_spec 0 (num us k)); [injection AV as <-; assumption|discriminate].
  - unfold in_filter in AV. destruct (Z.leb_spec 0 (num us k)); [|discriminate]. destruct ((true && _) && _); [injection AV as <-; assumption|discriminate].
Qed.

Lemma stream_reads : forall k todo prev pu buf st (P : gst -> Prop), (length todo <= k)%nat -> onway prev todo st -> g_mode st = fr_mapr_data -> remembered pu st ->
  (forall p, prev = Some p -> exists u, pu = Some u /\ map_keys us acts p = Some u /\ length p = sy_dim sy) -> (forall u, pu = Some u -> length u = sy_dim sy) ->
  (sy_dim sy <= length buf)%nat -> (forall u, pu = Some u -> firstn (sy_dim sy) buf = u) ->
  (forall st', mapped (noted (neg_all us acts) st (failing todo) (g_err st)) st st' -> P st') ->
  map_reads buf st (as_read (fun x => x) pu (passing st todo)) P.
Proof.
  induction k as [|k IH]; intros todo prev pu buf st P LT OW M RM PV LU LB BU HP.
  all: pose proof (scan_spec st todo) as SS; destruct (map_loop_ok todo (read_fuel z st) prev (sy_dim sy) (firstn (sy_dim sy) buf) st OW) as (st1 & E1 & K1 & X1);
    [pose proof (source_fuel z F n (List.map stored todo) st (Src_block z F n sy todo st (ow_read _ _ _ OW) D20)) as SF; rewrite map_length in SF; exact SF
    |rewrite firstn_length; lia|lia|lia
    |intros p Hp; destruct (PV p Hp) as (u & -> & MK & LP); split; [lia|]; split; [rewrite firstn_length; lia|]; split; [lia|]; rewrite (BU u eq_refl); apply map_keys_firstn; exact MK|].
  all: assert (EX : exec z (gdxDataReadMap buf) st = 
     do (r, s) <- map_loop z (read_fuel z st) (sy_dim sy) (firstn (sy_dim sy) buf) false st ;;
     match r with
     | None => Done (ret 0, s)
     | Some (keys, vals, addnew) =>
        do (keys, added, d) <- (if addnew : bool then number_new (sy_dim sy) 0 keys (w_added (g_wrk s)) (g_dic s) else Done (keys, w_added (g_wrk s), g_dic s)) ;;
        let s := upd_wrk (set_w_added added) (set_g_dic d s) in
        let '(af, s) := note_keys keys s in Done (ret_iv 1 (af :: keys) vals, s)
     end)
    by (cbn [exec]; unfold read_map, checked; rewrite M; change (mode_in fr_mapr_data [fr_map_data; fr_mapr_data]) with true; cbv iota zeta;
        rewrite (onway_dim _ _ _ OW); destruct (Nat.ltb_spec (length buf) (sy_dim sy)); [lia|]; rewrite (not_scalar _ _ _ OW); reflexivity).
  - destruct todo; [|cbn in LT; lia]. cbn [scan fst snd option_map passing flat_map as_read map_reads] in *. rewrite E1 in EX. cbn [obind] in EX.
    exists st1. split; [exact EX|]. apply HP. apply kept_mapped. exact K1.
  - destruct (scan us acts todo) as [rej [[[u t] rest]|]]; cbn [fst snd option_map] in *; rewrite E1 in EX; cbn [obind] in EX.
    + destruct SS as (MK & PA & FA & LR & IN). rewrite unchanged in EX. rewrite PA. cbn [as_read map_reads].
      assert (LK : length (snd (fst t)) = sy_dim sy).
      { pose proof (rg_keys _ _ _ _ _ _ _ (ow_read _ _ _ OW)) as RK. rewrite Forall_forall in RK. apply (RK t IN). }
      assert (IT : Forall (in_table us) (snd (fst t))).
      { pose proof (ow_in _ _ _ OW) as OI. rewrite Forall_forall in OI. apply (OI t IN). }
      pose proof (map_keys_length _ _ _ _ MK ltac:(lia)) as LU2. pose proof (map_keys_nonneg _ _ _ MK IT) as NN.
      assert (RM1 : remembered pu st1) by (unfold remembered; rewrite (kp_prev _ _ (proj1 K1)); exact RM).
      destruct (note_keys_ok pu u st1 RM1 ltac:(lia) NN LU) as [NK RM2]. rewrite NK in EX. rewrite map_id.
      set (st2 := upd_wrk (set_w_prev (u ++ skipn (length u) (w_prev (g_wrk st1)))) st1) in *.
      assert (MP : mapped (noted (neg_all us acts) st rej (g_err st)) st st2).
      { apply kept_mapped in K1. destruct K1. constructor; assumption. }
      exists st2. split; [exact EX|]. intros buf' HB. rewrite <- (mapped_passing _ _ _ _ MP).
      apply (IH rest (Some (snd (fst t))) (Some u) buf' st2 P).
      * lia.
      * destruct X1. constructor; try assumption. eapply reading_same; try eassumption; reflexivity.
      * rewrite (md_mode _ _ _ MP). exact M.
      * exact RM2.
      * intros p Hp. injection Hp as <-. exists u. auto.
      * intros u' Hu. injection Hu as <-. lia.
      * apply (f_equal (@length Z)) in HB. rewrite firstn_length in HB. lia.
      * intros u' Hu. injection Hu as <-. rewrite <- LK, <- LU2. exact HB.
      * intros st' MS. apply HP. rewrite FA. unfold noted. rewrite fold_left_app. fold (noted (neg_all us acts) st rej (g_err st)).
        rewrite (mapped_noted _ _ _ _ _ _ MP), (md_err _ _ _ MP) in MS. eapply mapped_trans; [exact MP|exact MS].
    + destruct SS as (PA & FA). rewrite PA. cbn [as_read map_reads]. exists st1. split; [exact EX|]. apply HP. rewrite FA. apply kept_mapped. exact K1.
Qed.


(** ** Reading from the sorted list *)

Lemma list_reads : forall rs pu items buf st (P : gst -> Prop), onway_cur st -> g_mode st = fr_map_data -> w_dim (g_wrk st) = sy_dim sy -> remembered pu st ->
  w_sort (g_wrk st) = Some items -> w_rd (g_wrk st) = (if match rs, pu with [], None => true | _, _ => false end then None else Some rs) ->
  Forall (fun r : list Z * list Z => length (fst r) = sy_dim sy /\ Forall (fun k => 0 <= k) (fst r)) rs -> (forall u, pu = Some u -> length u = sy_dim sy) ->
  (sy_dim sy <= length buf)%nat -> (forall st', mapped (g_err st) st st' -> P st') ->
  map_reads buf st (as_read (fun x => x) pu rs) P.
Proof.
  induction rs as [|[u v] rs IH]; intros pu items buf st P OC M WD RM WS WR FR LU LB HP.
  - cbn [as_read map_reads]. exists st. split; [|apply HP; apply mapped_self]. cbn [exec]. unfold read_map, checked. rewrite M. change (mode_in fr_map_data [fr_map_data; fr_mapr_data]) with true. cbv iota zeta.
    rewrite WD. destruct (Nat.ltb_spec (length buf) (sy_dim sy)); [lia|]. unfold onway_cur in OC. rewrite OC. cbn [obind]. rewrite WR, WS. destruct pu; reflexivity.
  - pose proof (Forall_inv FR) as [F1 F2]. cbn [fst] in F1, F2. set (st0 := upd_wrk (set_w_rd (Some rs)) st).
    destruct (note_keys_ok pu u st0 RM F1 F2 LU) as [NK RM2]. cbn [as_read map_reads]. rewrite map_id.
    exists (upd_wrk (set_w_prev (u ++ skipn (length u) (w_prev (g_wrk st0)))) st0). split.
    + cbn [exec]. unfold read_map, checked. rewrite M. change (mode_in fr_map_data [fr_map_data; fr_mapr_data]) with true. cbv iota zeta.
      rewrite WD. destruct (Nat.ltb_spec (length buf) (sy_dim sy)); [lia|]. unfold onway_cur in OC. rewrite OC. cbn [obind]. rewrite WR, WS. cbv iota. fold st0. rewrite NK. reflexivity.
    + intros buf' HB. apply (IH (Some u) items).
      * exact OC.
      * exact M.
      * exact WD.
      * exact RM2.
      * exact WS.
      * destruct rs; reflexivity.
      * exact (Forall_inv_tail FR).
      * intros x Hx. injection Hx as <-. exact F1.
      * apply (f_equal (@length Z)) in HB. rewrite firstn_length in HB. lia.
      * intros st' MS. apply HP. eapply mapped_trans; [|exact MS]. constructor; try reflexivity. apply same_dic_refl.
Qed.


(** ** From the start of the reading *)

(** What the start of reading does to the object, but for the work area and the errors. *)
Record begun (st st1 : gst) : Prop := mkBegun {
  bg_mode : g_mode st1 = fr_map_data \/ g_mode st1 = fr_mapr_data;
  bg_aft : g_aft st1 = g_aft st;
  bg_env : g_env st1 = g_env st;
  bg_sli : g_sli st1 = g_sli st;
  bg_uels : d_uels (g_dic st1) = d_uels (g_dic st);
  bg_usr : d_usr (g_dic st1) = d_usr (g_dic st);
  bg_acros : d_acros (g_dic st1) = d_acros (g_dic st);
  bg_filts : d_filts (g_dic st1) = d_filts (g_dic st);
  bg_tot : r_tot (g_err st1) = r_tot (g_err st);
  bg_added : w_added (g_wrk st1) = 0
}.

Lemma passing_len : forall st todo, Forall (fun t : triple => length (snd (fst t)) = sy_dim sy /\ Forall (in_table us) (snd (fst t))) todo ->
  Forall (fun r : list Z * list Z => length (fst r) = sy_dim sy /\ Forall (fun k => 0 <= k) (fst r)) (passing st todo).
Proof.
  intros st todo Hf. induction Hf as [|t todo [L IT] Hf IH]; cbn [passing flat_map]; [constructor|]. apply Forall_app. split; [|exact IH].
  destruct (map_keys us acts (snd (fst t))) as [u|] eqn:E; constructor; [|constructor]. cbn [fst]. split; [rewrite (map_keys_length _ _ _ _ E); lia|]. eapply map_keys_nonneg; eassumption.
Qed.

Lemma status_same : forall d, let d' := snd (map_status d) in d_uels d' = d_uels d /\ d_usr d' = d_usr d /\ d_acros d' = d_acros d /\ d_filts d' = d_filts d /\
  d_names d' = d_names d /\ d_maptext d' = d_maptext d.
Proof. intros d. unfold map_status. destruct (d_status d); cbn; auto 10. Qed.
Lemma upd_sym_same : forall m f d, let d' := upd_sym m f d in d_uels d' = d_uels d /\ d_usr d' = d_usr d /\ d_acros d' = d_acros d /\ d_filts d' = d_filts d /\ d_status d' = d_status d.
Proof. intros m f d. unfold upd_sym. destruct (znth _ _); cbn; auto 10. Qed.

Lemma map_start : forall tab k st nm recs doms, reads_file z F tab k st -> g_mode st = fr_init -> d_uels (g_dic st) = us -> znth tab (n - 1) = Some (nm, sy) ->
  sy_type sy <> dt_alias -> block_at z (z_host z) F sy recs -> ~ (sy_dim sy = O /\ recs = []) -> (sy_dim sy <= length doms)%nat ->
  domain_actions (d_filts (g_dic st)) (firstn (sy_dim sy) doms) = Some acts -> Forall (fun m => m <> -1) (firstn (sy_dim sy) doms) ->
  Forall (fun r : srec => Forall (in_table us) (fst r)) recs -> 
  let todo := with_first (repeat INDEX_INITIAL (sy_dim sy)) recs in calm st todo ->
  exists c st1 out neg, prepare_symbol_read z n doms fr_map_data st = Done (c, st1) /\ begun st st1 /\
    ((out = passing st todo /\ c = sy_count sy /\ neg = neg_all us acts /\ Forall (keeps_order (fst (map_status (g_dic st)))) acts) \/
     (stable_sort_of (passing st todo) out /\ c = zlen out /\ neg = neg_first us acts)) /\
    forall buf (P : gst -> Prop), (sy_dim sy <= length buf)%nat -> (forall st', mapped (noted neg st (failing todo) (set_r_list None (g_err st))) st1 st' -> P st') ->
      map_reads buf st1 (as_read (fun x => x) None out) P.
Proof.
  intros tab k st nm recs doms Q MO UE T TY BL NES DL DA NX IT todo CA.
  destruct (block_order _ _ _ _ BL D20) as [BO1 BO2].
  pose proof (prepare_head z F tab k st n nm sy recs doms acts fr_map_data Q MO T TY D20 BL DL DA) as P.
  replace (Nat.eqb (sy_dim sy) 0 && (zlen recs =? 0)) with false in P.
  2:{ symmetry. destruct (Nat.eqb_spec (sy_dim sy) 0); [|reflexivity]. destruct recs; [exfalso; auto|]. cbn [andb]. apply Z.eqb_neq. unfold zlen. cbn [length]. lia. }
  destruct P as (st' & s & PR & SD & ST & RD). fold todo in RD. rewrite PR. clear PR.
  destruct SD as (E1 & E2 & E3 & E4 & E5). destruct ST as [S1 S2 S3 (b & S4) S5 S6 S7 S8 S9 S10 S11 S12].
  assert (DS : d_uels (g_dic st') = us /\ d_usr (g_dic st') = d_usr (g_dic st) /\ d_acros (g_dic st') = d_acros (g_dic st) /\ d_filts (g_dic st') = d_filts (g_dic st) /\ fst (map_status (g_dic st')) = fst (map_status (g_dic st))).
  { destruct (upd_sym_same n (set_sy_scalar b) (g_dic st)) as (U1 & U2 & U3 & U4 & U5). rewrite S4. rewrite <- UE. do 4 (split; [assumption|]). unfold map_status. rewrite U5, U1. destruct (d_status (g_dic st)); reflexivity. }
  destruct DS as (DS1 & DS2 & DS3 & DS4 & DS5).
  destruct (will_be_sorted_ok _ _ _ true (g_dic st') DA NX) as (srt & d & WB & DC & KO).
  assert (DD : d_uels d = us /\ d_usr d = d_usr (g_dic st) /\ d_acros d = d_acros (g_dic st) /\ d_filts d = d_filts (g_dic st) /\ d_names d = d_names (g_dic st') /\ d_maptext d = d_maptext (g_dic st')).
  { destruct DC as [-> | ->]; [auto 10|]. destruct (status_same (g_dic st')) as (A1 & A2 & A3 & A4 & A5 & A6). split; [congruence|]. split; [congruence|]. split; [congruence|]. split; [congruence|]. auto. }
  destruct DD as (DD1 & DD2 & DD3 & DD4 & DD5 & DD6).
  assert (LK : Forall (fun t : triple => length (snd (fst t)) = sy_dim sy /\ Forall (in_table us) (snd (fst t))) todo).
  { unfold todo. clear - BO1 IT. generalize (repeat INDEX_INITIAL (sy_dim sy)). induction recs as [|[ks vs] recs IH]; intros pv; cbn [with_first]; constructor.
    - cbn [fst snd]. pose proof (Forall_inv BO1) as [L _]. pose proof (Forall_inv IT) as I1. auto.
    - apply IH; [exact (Forall_inv_tail IT)|exact (Forall_inv_tail BO1)]. }
  assert (CH : chained (sy_dim sy) None todo) by (apply (chained_block (sy_dim sy) recs None); [exact BO1|exact BO2|discriminate]).
  assert (OW : forall l st2, length l = sy_dim sy -> reading z F n sy false todo (upd_wrk (set_w_last l) st') -> g_fil st2 = g_fil st' -> g_env st2 = g_env st' -> g_dic st2 = d ->
             w_univ (g_wrk st2) = w_univ (g_wrk st') -> w_cur (g_wrk st2) = w_cur (g_wrk st') -> w_dim (g_wrk st2) = w_dim (g_wrk st') -> w_dsize (g_wrk st2) = w_dsize (g_wrk st') ->
             w_mms (g_wrk st2) = w_mms (g_wrk st') -> w_last (g_wrk st2) = l -> w_doms (g_wrk st2) = acts -> onway None todo st2).
  { intros l st2 LL R F1 F2 F3 F4 F5 F6 F7 F8 F9 F10. constructor.
    - eapply reading_same; [exact R|exact F1|rewrite F3; exact DD6|rewrite F3; exact DD5|exact F4|exact F5|exact F6|exact F7|exact F8|exact F9].
    - destruct CA as [C|C]; [left; rewrite F2, S3; exact C|right; exact C].
    - exact F10.
    - rewrite F3. exact DD1.
    - eapply Forall_impl; [|exact LK]. intros t [_ X]. exact X.
    - exact CH. }
  assert (WD : w_dim (g_wrk st') = sy_dim sy).
  { specialize (RD (repeat (-1) (sy_dim sy)) (repeat_length _ _)). exact (rg_dim _ _ _ _ _ _ _ RD). }
  assert (VS : forall st2, g_env st2 = g_env st' -> d_acros (g_dic st2) = d_acros (g_dic st) -> passing st2 todo = passing st todo /\ forall neg x, noted neg st2 (failing todo) x = noted neg st (failing todo) x).
  { intros st2 V1 V2. assert (VV : forall vs, value_of st2 vs = value_of st vs) by (intros vs; unfold value_of; rewrite V1, V2, S3; reflexivity). split.
    - unfold passing. apply flat_map_ext. intros t. rewrite VV. reflexivity.
    - intros neg x. unfold noted. revert x. induction (failing todo) as [|t l IH]; intros x; [reflexivity|]. cbn [fold_left]. rewrite VV. apply IH. }
  unfold go_on. change (mode_in fr_map_data [fr_map_data]) with true. cbv iota zeta. rewrite WB. cbn [obind]. rewrite <- E2, <- E4. destruct srt.
  - set (st1 := set_g_mode fr_mapr_data (upd_wrk (set_w_last (repeat (-1) (sy_dim sy))) (set_g_dic d st'))).
    assert (OK : onway None todo st1).
    { apply (OW (repeat (-1) (sy_dim sy))); try reflexivity; [apply repeat_length|apply RD; apply repeat_length|exact S7]. }
    destruct (VS st1 eq_refl DD3) as [VP VN].
    exists (sy_count sy), st1, (passing st todo), (neg_all us acts). split; [reflexivity|]. split.
    { constructor; try assumption; [right; reflexivity|rewrite UE; exact DD1|]. cbn. rewrite S5. reflexivity. }
    split. { left. split; [reflexivity|]. split; [reflexivity|]. split; [reflexivity|]. rewrite DS5 in KO. exact (KO eq_refl). }
    intros buf P LB HP. rewrite <- VP. apply (stream_reads (length todo) todo None None).
    + apply le_n.
    + exact OK.
    + reflexivity.
    + unfold remembered. exact (S11 _ WD).
    + discriminate.
    + discriminate.
    + exact LB.
    + discriminate.
    + intros st2 MP. apply HP. rewrite VN in MP. change (g_err st1) with (g_err st') in MP. rewrite S5 in MP. exact MP.
  - assert (OK : onway None todo (set_g_dic d st')).
    { apply (OW (w_last (g_wrk st'))); try reflexivity; [congruence|apply RD; congruence|exact S7]. }
    destruct (read_all_ok todo (read_fuel z (set_g_dic d st')) None (sy_dim sy) (repeat 0 (sy_dim sy)) [] _ OK) as (st2 & RA & KW & OC).
    { pose proof (source_fuel z F n (List.map stored todo) _ (Src_block z F n sy todo _ (ow_read _ _ _ OK) D20)) as SF. rewrite map_length in SF. exact SF. }
    { apply repeat_length. } { lia. } { lia. } { discriminate. }
    destruct (VS (set_g_dic d st') eq_refl DD3) as [VP VN].
    rewrite RA. cbn [obind app]. rewrite VP. pose proof (passing_len st todo LK) as PL.
    destruct (sorted_items_spec (sy_dim sy) (passing st todo)) as (rs & SI & SS).
    { eapply Forall_impl; [|exact PL]. intros r [X _]. exact X. }
    rewrite SI. cbn [obind].
    assert (LR : zlen (passing st todo) = zlen rs) by (unfold zlen; f_equal; apply Permutation_length; exact (proj1 SS)).
    match goal with |- context [Done (_, ?x) = _] => set (st1 := x) end.
    exists (zlen (passing st todo)), st1, rs, (neg_first us acts). split; [reflexivity|].
    rewrite VN in KW. change (g_err (set_g_dic d st')) with (g_err st') in KW. rewrite S5 in KW.
    pose proof (kept_mapped _ _ _ KW) as [M1 M2 M3 M4 M5 M6 M7 M8 M9]. destruct (same_dic_parts _ _ M6) as (P1 & P2 & P3 & P4 & P5).
    split.
    { constructor.
      - left. reflexivity.
      - cbn. rewrite M2. exact S2.
      - cbn. rewrite M3. exact S3.
      - cbn. rewrite M5. exact S6.
      - cbn. rewrite P1, UE. exact DD1.
      - cbn. rewrite P2. exact DD2.
      - cbn. rewrite P3. exact DD3.
      - cbn. rewrite P4. exact DD4.
      - cbn. rewrite M4, noted_tot. reflexivity.
      - cbn. rewrite M9. exact S8. }
    split. { right. split; [exact SS|]. split; [exact LR|reflexivity]. }
    intros buf P LB HP. apply (list_reads rs None (passing st todo)).
    + exact OC.
    + reflexivity.
    + cbn. rewrite M7. exact WD.
    + unfold remembered. cbn. rewrite (kp_prev _ _ (proj1 KW)). exact (S11 _ WD).
    + reflexivity.
    + cbn. destruct (passing st todo), rs; try reflexivity; exfalso; destruct SS as (PM & _); apply Permutation_length in PM; discriminate.
    + eapply Permutation_Forall; [exact (proj1 SS)|exact PL].
    + discriminate.
    + exact LB.
    + intros st3 MP. apply HP. cbn in MP. rewrite M4 in MP. exact MP.
Qed.
End Sym.
End Z.
