(** * PropStruct: theorems about the data structures and codecs

    Each theorem is one of the properties of properties.jsonl, stated about the model
    of the code that implements it.  Specifications are defined here or are plain list
    functions; the proofs are in the files that define the models. *)

From Coq Require Import Permutation Sorted.
From Verif Require Import Base Prim Values Records LinkedData StrHash IntMap Strings AStream BufStream
  Password GmsNum FloatAcr Dict.

(** ** C10: the order in which buffered records are written *)

Theorem C10_dataset_sort_is_stable : forall (V : Type) (dim : nat) (arrived : list (list Z * V)),
  Forall (fun r => length (fst r) = dim) arrived ->
  exists written, ld_sort (ld_build dim arrived) = Some written /\ stable_sort_of arrived written.
Proof.
  intros V dim l F. destruct (ld_build_spec dim l F) as (I & R & D).
  destruct (ld_sort_stable (ld_build dim l) I) as (out & E & S).
  exists out. split; [exact E|]. rewrite R in S. exact S.
Qed.

Example C10_case : ld_sort (ld_build 2 [([3; 1], 10); ([1; 9], 11); ([3; 1], 12); ([1; 2], 13)])
  = Some [([1; 2], 13); ([1; 9], 11); ([3; 1], 10); ([3; 1], 12)].
Proof. vm_compute. reflexivity. Qed.

(** ** C11, C12: the label dictionary *)

(** The hash table answers every history of registrations, lookups, renames and
    enumerations like a list of labels in order of registration. *)
Theorem C11_labels_are_a_dictionary : forall ops : list dop, h_run hl_new ops = d_run [] ops.
Proof. intros ops. apply run_rel. exact new_rel. Qed.

Example C11_case :
  h_run hl_new [DAdd [97; 98]; DAdd [99]; DFind [65; 66]; DAdd [65; 98]; DRename [67] [100; 32]; DFind [99]; DFind [68]; DText 2]
  = [DNum 1; DNum 2; DNum 1; DNum 1; DNum 0; DNum (-1); DNum 2; DLabel (Some [100])].
Proof. vm_compute. reflexivity. Qed.

(** Existing numbers never change by registering more labels, and numbers are 1..n. *)
Theorem C11_numbers_are_stable : forall l s t n, position l s 1 = Some n -> position (l ++ [t]) s 1 = Some n.
Proof.
  intros l s t. generalize 1. induction l as [| u l IH]; intros k n; cbn [position app]; [discriminate|].
  destruct (str_eqb (upper u) (upper s)); auto.
Qed.

(** What the specification of renaming means for lookups. *)
Theorem C12_rename_effect : forall l old new n,
  (forall i j s t, nth_error l i = Some s -> nth_error l j = Some t -> upper s = upper t -> i = j) ->
  position l old 1 = Some n -> position l new 1 = None ->
  let l' := replace_at l (Z.to_nat (n - 1)) new in
  position l' new 1 = Some n
  /\ (upper old <> upper new -> position l' old 1 = None)
  /\ forall other, upper other <> upper old -> upper other <> upper new ->
       position l' other 1 = position l other 1.
Proof.
  intros l old new n D P N l'.
  assert (SE : forall a b, str_eqb (upper a) (upper b) = true <-> upper a = upper b) by (intros; apply str_eqb_spec).
  assert (SN : forall a b, upper a <> upper b -> str_eqb (upper a) (upper b) = false).
  { intros a b H. destruct (str_eqb (upper a) (upper b)) eqn:E; [apply SE in E; contradiction|reflexivity]. }
  unfold l'. clear l'. revert n P N D. generalize 1.
  induction l as [| u l IH]; intros k n P N D; cbn [position] in P, N; [discriminate|].
  destruct (str_eqb (upper u) (upper new)) eqn:EN; [discriminate|].
  destruct (str_eqb (upper u) (upper old)) eqn:EO.
  - injection P as <-. rewrite Z.sub_diag. cbn [Z.to_nat replace_at position].
    apply SE in EO. rewrite (proj2 (SE new new) eq_refl). split; [reflexivity|]. split.
    + intros H. rewrite SN by congruence.
      apply position_None. intros t Ht. destruct (same_text true t old) eqn:Q; [|reflexivity].
      exfalso. apply same_text_spec in Q. cbn [norm] in Q. apply In_nth_error in Ht. destruct Ht as (i & Hi).
      assert (X := D O (S i) u t eq_refl Hi ltac:(congruence)). discriminate.
    + intros other H1 H2. rewrite (SN new other) by congruence.
      destruct (str_eqb (upper u) (upper other)) eqn:Q; [|reflexivity]. apply SE in Q. congruence.
  - destruct (position_Some _ _ _ _ P) as (B & _).
    destruct (IH (k + 1) n P N) as (I1 & I2 & I3).
    { intros i j s t Hi Hj E. assert (X := D (S i) (S j) s t Hi Hj E). congruence. }
    assert (R : replace_at (u :: l) (Z.to_nat (n - k)) new = u :: replace_at l (Z.to_nat (n - (k + 1))) new).
    { replace (Z.to_nat (n - k)) with (S (Z.to_nat (n - (k + 1)))) by lia. reflexivity. }
    rewrite R. cbn [position]. rewrite EN, EO. split; [exact I1|]. split; [exact I2|].
    intros other H1 H2. rewrite I3 by assumption. reflexivity.
Qed.

(** ** C13: what the label check accepts *)

Theorem C13_label_check_is_exact : forall s, good_uel s = true <->
  (zlen s <= 63 /\ (forall c, In c s -> 32 <= c) /\ ~ (In 39 s /\ In 34 s)).
Proof.
  intros s. rewrite good_uel_spec. unfold wf_label, quotable. rewrite Forall_forall. tauto.
Qed.

(** ** C19: integer maps *)

Theorem C19_integer_maps : forall ops : list (Z * Z), Forall (fun p => 0 <= fst p <= INT_MAX) ops ->
  exists m, im_sets im_new ops = Done m
    /\ forall index, im_get m index = last_assigned ops index.
Proof.
  intros ops F. destruct (im_sets_spec ops im_new im_new_inv F) as (m & E & I & G & H).
  exists m. split; [exact E|]. intros g. rewrite G.
  destruct (existsb (fun p => fst p =? g) ops) eqn:X; [reflexivity|].
  assert (Y : im_get im_new g = -1).
  { unfold im_get, im_new, znth. cbn [im_cells]. destruct (g <? 0); [reflexivity|]. destruct (Z.to_nat g); reflexivity. }
  rewrite Y. clear - X. induction ops as [| [f t] ops IH]; [reflexivity|].
  cbn [existsb fst] in X. apply orb_false_iff in X. destruct X as [X1 X2].
  cbn [last_assigned]. rewrite X2, X1. apply IH. exact X2.
Qed.

Example C19_case : match im_sets im_new [(5, 50); (200000, 7); (5, 51)] with
  | Done m => (im_get m 5, im_get m 200000, im_get m 6, im_get m (-3)) | UB => (0, 0, 0, 0) end = (51, 7, -1, -1).
Proof. vm_compute. reflexivity. Qed.

(** ** C44: bit sets *)

Theorem C44_bit_sets : forall ns : list Z, Forall (fun n => n <= INT_MAX - 8) ns ->
  exists b, ba_sets ba_new ns = Done b
    /\ forall m, exists v, ba_get b m = Done v /\ (v = true <-> (0 <= m /\ In m ns)).
Proof.
  intros ns F. destruct (ba_sets_spec ns ba_new ba_new_inv F) as (b & E & I & G).
  exists b. split; [exact E|]. intros m. destruct (G m) as (v & V1 & V2).
  assert (v = false).
  { unfold ba_get, ba_new in V1. cbn [ba_high] in V1. destruct (Z.ltb_spec m 0); cbn [orb] in V1; [congruence|].
    rewrite Z.gtb_ltb in V1. destruct (Z.ltb_spec (-1) m); [congruence|lia]. }
  subst v. cbn [orb] in V2. eexists. split; [exact V2|]. rewrite existsb_exists. split.
  - intros (n & Hn & H). apply andb_true_iff in H. destruct H as [H1 H2]. apply Z.eqb_eq in H1. apply Z.leb_le in H2.
    subst. auto.
  - intros [H1 H2]. exists m. split; [exact H2|]. apply andb_true_iff. split; [apply Z.eqb_refl|apply Z.leb_le; exact H1].
Qed.

(** Clearing a bit through the same interface clears its seven neighbours as well; the
    library never clears a bit. *)
Theorem C44_clear_refuted : exists b b' : bitarr, ba_sets ba_new [1; 2] = Done b
  /\ ba_set b 1 false = Done b' /\ ba_get b 2 = Done true /\ ba_get b' 2 = Done false.
Proof. eexists. eexists. split; [vm_compute; reflexivity|]. split; [vm_compute; reflexivity|]. split; vm_compute; reflexivity. Qed.

(** ** C22, C23: the file stream *)

(** Whatever sequence of operations is performed on the buffered stream, with or
    without compression, it answers like the ideal stream and leaves the same file. *)
Theorem C23_buffering_is_transparent : forall (z : zlib) (f : list Z) (ops : list sop) rs a,
  aruns z ops (as_open f) = Some (rs, a) ->
  fst (bruns z ops (b_open f)) = rs /\ b_final z (snd (bruns z ops (b_open f))) = as_final z a.
Proof.
  intros z f ops rs a R. destruct (runs_sim z ops _ _ _ _ (open_sim z f) R) as [A B].
  split; [exact A|]. apply final_sim. exact B.
Qed.

Definition data_of (r : sres) : list Z := match r with RData d => d | _ => [] end.

Lemma aruns_app : forall z a b s rs s1, aruns z a s = Some (rs, s1) ->
  aruns z (a ++ b) s = match aruns z b s1 with Some (rs2, s2) => Some (rs ++ rs2, s2) | None => None end.
Proof.
  intros z. induction a as [| o a IH]; intros b s rs s1 R; cbn [aruns app] in *.
  - injection R as <- <-. destruct (aruns z b s) as [[? ?]|]; reflexivity.
  - destruct (astep z o s) as [[r s']|]; [|discriminate].
    destruct (aruns z a s') as [[rs' s'']|] eqn:E; [|discriminate]. injection R as <- <-.
    rewrite (IH _ _ _ _ E). destruct (aruns z b s'') as [[? ?]|]; reflexivity.
Qed.

Lemma aruns_writes : forall z parts s, (exists c, as_mode s = AIdle c) \/ (exists w, as_mode s = AWr w) ->
  exists rs, concat (map data_of rs) = [] /\
  aruns z (map OWrite parts) s =
    Some (rs, match parts with [] => s | _ =>
            mkAS (as_file s) (as_pos s) (as_comp s)
                 (AWr (match as_mode s with AWr w => w ++ concat parts | _ => concat parts end)) end).
Proof.
  intros z. induction parts as [| b parts IH]; intros s H; cbn [map aruns].
  - exists []. split; reflexivity.
  - cbn [astep]. unfold as_write. destruct H as [[c M]|[w M]]; rewrite M.
    + destruct (IH (mkAS (as_file s) (as_pos s) (as_comp s) (AWr b))) as (rs & R1 & R2); [right; eexists; reflexivity|].
      rewrite R2. exists (RUnit :: rs). split; [exact R1|]. destruct parts; cbn [as_file as_pos as_comp as_mode concat].
      * rewrite app_nil_r. reflexivity.
      * reflexivity.
    + destruct (IH (mkAS (as_file s) (as_pos s) (as_comp s) (AWr (w ++ b)))) as (rs & R1 & R2); [right; eexists; reflexivity|].
      rewrite R2. exists (RUnit :: rs). split; [exact R1|]. destruct parts; cbn [as_file as_pos as_comp as_mode concat].
      * rewrite app_nil_r. reflexivity.
      * rewrite <- !app_assoc. reflexivity.
Qed.

Lemma aruns_reads : forall z ns s v, as_view z s = Some v -> (fold_right Nat.add 0%nat ns <= length v)%nat ->
  exists rs s', aruns z (map ORead ns) s = Some (rs, s')
    /\ concat (map data_of rs) = firstn (fold_right Nat.add 0%nat ns) v.
Proof.
  intros z. induction ns as [| n ns IH]; intros s v V L; cbn [map aruns fold_right] in *.
  - exists [], s. split; reflexivity.
  - assert (F : as_flush z s = s).
    { unfold as_view in V. unfold as_flush. destruct (as_mode s); [reflexivity|discriminate|reflexivity|discriminate]. }
    cbn [astep]. rewrite F. unfold as_read. rewrite V.
    destruct (Nat.leb_spec n (length v)); [|lia].
    destruct (IH (as_consume (skipn n v) (Z.of_nat n) s) (skipn n v)) as (rs & s' & R1 & R2).
    { reflexivity. }
    { rewrite skipn_length. lia. }
    rewrite R1. eexists. eexists. split; [reflexivity|]. cbn [map concat data_of]. rewrite R2.
    rewrite <- (firstn_skipn n (firstn (n + fold_right Nat.add 0%nat ns) v)).
    rewrite firstn_firstn, Nat.min_l by lia. f_equal.
    rewrite firstn_skipn_comm. reflexivity.
Qed.

(** With compression on, data written in any division is read back in any division. *)
Theorem C22_compression_is_transparent : forall (z : zlib) (parts : list (list Z)) (reads : list nat) (f : list Z) (p : Z),
  0 <= p -> Forall bytes_ok parts -> parts <> [] ->
  fold_right Nat.add 0%nat reads = length (concat parts) ->
  let ops := [OSetComp true; OSetPos p] ++ map OWrite parts ++ [OSetPos p] ++ map ORead reads in
  concat (map data_of (fst (bruns z ops (b_open f)))) = concat parts.
Proof.
  intros z parts reads f p P B NE L ops.
  destruct (aruns_writes z parts (mkAS f p true (AIdle true))) as (rs & R1 & R2); [left; eexists; reflexivity|].
  set (X := concat parts) in *.
  set (s1 := mkAS f p true (AWr X)).
  assert (BX : bytes_ok X).
  { unfold X. clear - B. induction B; cbn [concat]; [constructor|]. apply Forall_app. split; assumption. }
  set (s2 := mkAS (pwrite f p (phys z true X)) p true (AIdle true)).
  assert (V : exists rest, as_view z s2 = Some (X ++ rest)).
  { unfold as_view, s2. cbn [as_mode as_comp as_file as_pos].
    destruct (phys z true X) as [| b0 b1] eqn:EB.
    - assert (X = []).
      { destruct X as [| x X']; [reflexivity|]. exfalso. unfold phys in EB. cbn [length] in EB.
        rewrite chunks_step in EB by discriminate. cbn [flat_map] in EB. unfold enc_block in EB.
        destruct (_ <? _); discriminate. }
      rewrite H. eexists. reflexivity.
    - destruct (pwrite_shape f p (b0 :: b1) P ltac:(discriminate)) as (pre & tail & L1 & L2 & L3).
      rewrite L3. unfold pread. rewrite <- L1, skipn_zlen_app. rewrite <- EB.
      destruct (unphys_phys z true X (skipn (length (phys z true X)) tail) BX) as (rest' & E). rewrite E. eexists. reflexivity. }
  destruct V as (rest & V).
  destruct (aruns_reads z reads s2 _ V) as (rs2 & s3 & R3 & R4); [rewrite app_length, L; lia|].
  assert (RUN : exists rs', aruns z ops (as_open f) = Some (rs', s3) /\ concat (map data_of rs') = X).
  { unfold ops. cbn [app aruns astep]. unfold as_open.
    change (as_setcomp z true (mkAS f 0 false (AIdle true))) with (mkAS f 0 true (AIdle true)).
    destruct (Z.ltb_spec p 0); [lia|].
    change (as_setpos z p (mkAS f 0 true (AIdle true))) with (mkAS f p true (AIdle true)).
    rewrite (aruns_app z _ _ _ _ _ R2). destruct parts as [| q parts]; [congruence|].
    cbn [as_file as_pos as_comp as_mode]. cbn [aruns astep]. destruct (Z.ltb_spec p 0); [lia|].
    change (as_setpos z p (mkAS f p true (AWr X))) with s2.
    rewrite R3. eexists. split; [reflexivity|].
    cbn [map concat data_of app]. rewrite map_app, concat_app, R1. cbn [map concat data_of app].
    rewrite R4, L. fold X. rewrite firstn_app, firstn_all, Nat.sub_diag. cbn [firstn]. apply app_nil_r. }
  destruct RUN as (rs' & R5 & R6).
  destruct (runs_sim z ops _ _ _ _ (open_sim z f) R5) as [A _]. rewrite A. exact R6.
Qed.

(** ** C34: explanatory texts *)

Theorem C34_texts_are_made_safe : forall s : str,
  let t := make_good (assign_expl s) in
  zlen t <= 255 /\ (forall c, In c t -> 32 <= c) /\ ~ (In 39 t /\ In 34 t)
  /\ (zlen s <= 255 -> quotable s -> t = s).
Proof.
  intros s t. assert (LT : zlen t <= 255).
  { unfold t, make_good, zlen. rewrite make_good_length. apply assign_expl_length. }
  destruct (make_good_quotable (assign_expl s)) as (Q1 & Q2). fold t in Q1, Q2.
  split; [exact LT|]. split; [apply Forall_forall; exact Q1|]. split; [exact Q2|].
  intros L Q. unfold t, assign_expl. destruct (Z.ltb_spec (zlen s) 256); [|lia]. apply make_good_id. exact Q.
Qed.

Example C34_case : make_good (assign_expl [97; 39; 7; 34; 98]) = [97; 39; 63; 39; 98].
Proof. reflexivity. Qed.

(** ** C41: packed numbers *)

Theorem C41_packed_integers : forall n rest, int_ok n -> n <> INT_MIN ->
  exists bs, enc_gint n = Done bs /\ p_gint (bs ++ rest) = Done (Some (n, rest)).
Proof. exact gint_roundtrip. Qed.

Theorem C41_packed_doubles : forall d rest, u64_ok d -> fltb d SV_UNDEF = true -> d <> 2^63 ->
  exists bs, enc_gdbl d = Done bs /\ p_gdbl (bs ++ rest) = Done (Some (d, rest)).
Proof. exact gdbl_real_roundtrip. Qed.

Theorem C41_packed_specials : forall d rest, In d [SV_UNDEF; SV_NA; SV_PINF; SV_MINF; SV_EPS] ->
  exists bs, enc_gdbl d = Done bs /\ p_gdbl (bs ++ rest) = Done (Some (d, rest)).
Proof. exact gdbl_special_roundtrip. Qed.

Theorem C41_packed_acronyms : forall n rest, 1 <= n <= ACR_MAX ->
  let d := fmul SV_ACR (fofZ n) in
  exists bs, enc_gdbl d = Done bs /\ p_gdbl (bs ++ rest) = Done (Some (d, rest)).
Proof.
  intros n rest N d. assert (G := acr_ge n N). assert (R := acr_roundtrip n N). fold d in G, R.
  assert (L : fltb d SV_UNDEF = false).
  { destruct (fltb d SV_UNDEF) eqn:E; [|reflexivity]. exfalso. exact (fltb_fleb_contra _ E G). }
  unfold enc_gdbl, mapval. rewrite L, G, R. change (gmsval_code xvacr =? 0) with false. cbv iota.
  assert (I : int_ok n) by (unfold int_ok, INT_MIN, INT_MAX, ACR_MAX in *; lia).
  assert (M : n <> INT_MIN) by (unfold INT_MIN; lia).
  destruct (gint_roundtrip n rest I M) as (bs & E1 & E2). rewrite E1. cbn [obind].
  eexists. split; [reflexivity|].
  assert (X : forall l, p_gdbl (6 :: l) = match p_gint l with
            | Done (Some (n, r')) => Done (Some (fmul (fofZ n) SV_ACR, r'))
            | Done None => Done None | UB => UB end) by reflexivity.
  change (gmsval_code xvacr) with 6. cbn [app]. rewrite X, E2. rewrite (fmul_comm (fofZ n)). fold d. reflexivity.
Qed.

(** Outside: values in [1E300, 1E301) that are not one of the special values are
    turned into one, the negative zero loses its sign. *)
Theorem C41_outside_refuted :
  (exists bs, enc_gdbl (2^63) = Done bs /\ p_gdbl bs = Done (Some (0, []))) /\
  (exists d bs, u64_ok d /\ d <> SV_UNDEF /\ enc_gdbl d = Done bs /\ p_gdbl bs = Done (Some (SV_UNDEF, []))) /\
  enc_gint INT_MIN = UB.
Proof.
  split; [exists [7]; split; vm_compute; reflexivity|]. split; [|vm_compute; reflexivity].
  exists (SV_UNDEF + 1), [1]. split; [split; vm_compute; congruence|]. split; [discriminate|].
  split; vm_compute; reflexivity.
Qed.

(** ** C42: passwords *)

Theorem C42_password_is_transparent : forall (pw file : list Z) (p : Z) (parts : list (list Z)) (reads : list nat),
  0 <= p -> p + zlen (concat parts) <= INT_MAX -> total reads = length (concat parts) ->
  obind (px_writes pw file p parts) (fun file' => px_reads pw file' p reads) = Done (concat parts).
Proof. exact password_roundtrip. Qed.

(** ** C43: strings *)

Theorem C43_strings : forall (s : str) (rest : list Z), zlen s <= 255 ->
  exists bs, write_string s = Done bs /\ p_str (bs ++ rest) = Some (s, rest).
Proof.
  intros s rest L. unfold write_string. destruct (Z.leb_spec (zlen s) 255); [|lia].
  eexists. split; [reflexivity|]. apply p_str_enc.
Qed.

(** ** C24: byte order of single values *)

Theorem C24_values_in_either_order : forall (bo : border) (rest : list Z),
  (forall w, 0 <= w < 65536 -> p_word bo (enc_word bo w ++ rest) = Some (w, rest)) /\
  (forall n, int_ok n -> p_int bo (enc_int bo n ++ rest) = Some (n, rest)) /\
  (forall n, i64_ok n -> p_i64 bo (enc_i64 bo n ++ rest) = Some (n, rest)) /\
  (forall d, u64_ok d -> p_dbl bo (enc_dbl bo d ++ rest) = Some (d, rest)).
Proof.
  intros bo rest. split; [|split; [|split]]; intros.
  - apply p_word_enc; assumption.
  - apply p_int_enc; assumption.
  - apply p_i64_enc; assumption.
  - apply p_dbl_enc; assumption.
Qed.

(** ** C07: acronym numbers as doubles *)

Theorem C07_acronym_numbers_survive : forall n, 1 <= n <= 17976931 ->
  d_round (fdiv (fmul SV_ACR (fofZ n)) SV_ACR) = Some n.
Proof. exact acr_roundtrip. Qed.

(** 17976931 is the largest one: the next product is infinite. *)
Theorem C07_limit_refuted : fmul SV_ACR (fofZ 17976932) = 2047 * 2^52.
Proof. vm_compute. reflexivity. Qed.

Print Assumptions C10_dataset_sort_is_stable.
Print Assumptions C11_labels_are_a_dictionary.
Print Assumptions C11_numbers_are_stable.
Print Assumptions C12_rename_effect.
Print Assumptions C13_label_check_is_exact.
Print Assumptions C19_integer_maps.
Print Assumptions C44_bit_sets.
Print Assumptions C44_clear_refuted.
Print Assumptions C23_buffering_is_transparent.
Print Assumptions C22_compression_is_transparent.
Print Assumptions C34_texts_are_made_safe.
Print Assumptions C41_packed_integers.
Print Assumptions C41_packed_doubles.
Print Assumptions C41_packed_specials.
Print Assumptions C41_packed_acronyms.
Print Assumptions C41_outside_refuted.
Print Assumptions C42_password_is_transparent.
Print Assumptions C43_strings.
Print Assumptions C24_values_in_either_order.
Print Assumptions C07_acronym_numbers_survive.
Print Assumptions C07_limit_refuted.
