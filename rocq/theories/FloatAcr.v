(** * FloatAcr: an acronym number survives multiplication and division by 1E301

    The library stores acronym number [n] as the double [n * GMS_SV_ACR]
    (gxfile.cpp 3260-3268) and recovers it as [round(x / GMS_SV_ACR)]
    (gxfile.cpp 1500-1512, 3240-3243).  Both operations round; this file proves that the
    recovered number is exact.  The bridge from the standard library's executable
    floats to real numbers is Flocq's. *)

From Coq Require Import Reals Lra Floats.SpecFloat.
From Flocq Require Import Core BinarySingleNaN Relative.
From Verif Require Import Base Values.

Local Instance prec64_gt_0 : Prec_gt_0 prec64 := eq_refl.
Local Instance prec64_lt_emax : Prec_lt_emax prec64 emax64 := eq_refl.

Notation bfloat := (binary_float prec64 emax64).
Notation fexp64 := (SpecFloat.fexp prec64 emax64).
Notation rnd64 := (round radix2 fexp64 ZnearestE).

(** ** From patterns to Flocq's floats *)

Lemma of_to_bits : forall f, valid_binary prec64 emax64 f = true -> of_bits (to_bits f) = f.
Proof.
  intros [s|s| |s m e] V; try (destruct s; reflexivity); try reflexivity.
  cbn [valid_binary] in V. unfold bounded in V. apply andb_true_iff in V. destruct V as [V1 V2].
  apply Z.leb_le in V2. unfold canonical_mantissa in V1. apply Zeq_bool_eq in V1.
  unfold SpecFloat.fexp, SpecFloat.emin, prec64, emax64 in *.
  assert (D := Digits.Zpos_digits2_pos m).
  change (Digits.digits2_pos m) with (SpecFloat.digits2_pos m) in D. rewrite D in V1.
  assert (C := Digits.Zdigits_correct radix2 (Zpos m)). cbn [Z.abs] in C.
  set (d := Digits.Zdigits radix2 (Zpos m)) in *.
  assert (DP : 0 < d) by (apply Digits.Zdigits_gt_0; discriminate).
  assert (PW : forall k, 0 <= k -> Zpower radix2 k = 2 ^ k) by (intros; reflexivity).
  unfold to_bits.
  assert (H53 : Zpos m < 2 ^ 53).
  { eapply Z.lt_le_trans; [apply C|]. rewrite PW by lia. apply Z.pow_le_mono_r; lia. }
  unfold of_bits, d_sign, d_exp, d_mant.
  destruct (Z.ltb_spec (Zpos m) (2 ^ 52)) as [LT|GE].
  - assert (d <= 52).
    { destruct (Z.le_gt_cases d 52); [assumption|]. exfalso.
      assert (2 ^ 52 <= 2 ^ (d - 1)) by (apply Z.pow_le_mono_r; lia).
      rewrite PW in C by lia. lia. }
    assert (E : e = -1074) by lia. subst e.
    destruct s.
    + replace (2^63 <=? 2^63 + Z.pos m) with true by (symmetry; apply Z.leb_le; lia).
      replace (((2^63 + Z.pos m) / 2^52) mod 2048) with 0.
      2:{ replace (2^63 + Z.pos m) with (Z.pos m + 2048 * 2^52) by lia. rewrite Z.div_add by lia.
          rewrite (Z.div_small (Z.pos m)) by lia. reflexivity. }
      replace ((2^63 + Z.pos m) mod 2^52) with (Z.pos m).
      2:{ replace (2^63 + Z.pos m) with (Z.pos m + 2048 * 2^52) by lia. rewrite Z.mod_add by lia.
          rewrite Z.mod_small by lia. reflexivity. }
      reflexivity.
    + cbn [Z.add]. replace (2^63 <=? Z.pos m) with false by (symmetry; apply Z.leb_gt; lia).
      rewrite (Z.div_small (Z.pos m)) by lia. rewrite (Z.mod_small (Z.pos m)) by lia. reflexivity.
  - assert (d = 53).
    { assert (52 < d).
      { destruct (Z.le_gt_cases d 52); [|assumption]. exfalso.
        assert (2 ^ d <= 2 ^ 52) by (apply Z.pow_le_mono_r; lia).
        rewrite (PW d) in C by lia. lia. }
      destruct (Z.le_gt_cases d 53); [lia|]. exfalso.
      assert (2 ^ 53 <= 2 ^ (d - 1)) by (apply Z.pow_le_mono_r; lia).
      rewrite (PW (d - 1)) in C by lia. lia. }
    assert (E : -1074 <= e <= 971) by lia.
    set (w := Z.pos m - 2^52) in *. assert (W : 0 <= w < 2^52) by (unfold w; lia).
    assert (Q : forall sb, (sb = 0 \/ sb = 2^63) ->
      ((sb + (e + 1075) * 2^52 + w) / 2^52) mod 2048 = e + 1075
      /\ (sb + (e + 1075) * 2^52 + w) mod 2^52 = w).
    { intros sb SB. destruct SB as [->| ->].
      - replace (0 + (e + 1075) * 2^52 + w) with (w + (e + 1075) * 2^52) by lia.
        rewrite Z.div_add, Z.mod_add by lia. rewrite (Z.div_small w) by lia. rewrite (Z.mod_small w) by lia.
        split; [apply Z.mod_small; lia|reflexivity].
      - replace (2^63 + (e + 1075) * 2^52 + w) with (w + (e + 1075 + 2048) * 2^52) by lia.
        rewrite Z.div_add, Z.mod_add by lia. rewrite (Z.div_small w) by lia. rewrite (Z.mod_small w) by lia.
        split; [|reflexivity]. replace (0 + (e + 1075 + 2048)) with ((e + 1075) + 1 * 2048) by lia.
        rewrite Z.mod_add by lia. apply Z.mod_small; lia. }
    destruct s.
    + destruct (Q (2^63)) as [Q1 Q2]; [auto|]. rewrite Q1, Q2.
      replace (2^63 <=? 2^63 + (e + 1075) * 2^52 + w) with true by (symmetry; apply Z.leb_le; lia).
      destruct (Z.eqb_spec (e + 1075) 0); [lia|]. destruct (Z.eqb_spec (e + 1075) 2047); [lia|].
      replace (2^52 + w) with (Z.pos m) by (unfold w; lia). f_equal. lia.
    + destruct (Q 0) as [Q1 Q2]; [auto|]. rewrite Q1, Q2.
      replace (2^63 <=? 0 + (e + 1075) * 2^52 + w) with false by (symmetry; apply Z.leb_gt; lia).
      destruct (Z.eqb_spec (e + 1075) 0); [lia|]. destruct (Z.eqb_spec (e + 1075) 2047); [lia|].
      replace (2^52 + w) with (Z.pos m) by (unfold w; lia). f_equal. lia.
Qed.

Lemma of_to_B : forall (b : bfloat), of_bits (to_bits (B2SF b)) = B2SF b.
Proof. intros b. apply of_to_bits. apply valid_binary_B2SF. Qed.

(** The operations of Values.v are Flocq's (round to nearest even). *)
Lemma rne_equiv : forall s m l, round_nearest_even m l = choice_mode mode_NE s m l.
Proof.
  intros s m l. destruct l as [|c]; [reflexivity|]. destruct c; try reflexivity.
  cbn. unfold Round.cond_incr. destruct (Z.even m); reflexivity.
Qed.

Lemma bra_equiv : forall sx mx ex lx,
  SpecFloat.binary_round_aux prec64 emax64 sx mx ex lx
  = BinarySingleNaN.binary_round_aux prec64 emax64 mode_NE sx mx ex lx.
Proof.
  intros. unfold SpecFloat.binary_round_aux, BinarySingleNaN.binary_round_aux.
  destruct (shr_fexp _ _ _) as [mrs' e'] eqn:E. cbn.
  rewrite (rne_equiv sx). reflexivity.
Qed.

Lemma SFmul_B : forall x y : bfloat,
  SFmul prec64 emax64 (B2SF x) (B2SF y) = B2SF (Bmult mode_NE x y).
Proof.
  intros [sx|sx| |sx mx ex Bx] [sy|sy| |sy my ey By]; try reflexivity.
  cbn. rewrite B2SF_SF2B. apply bra_equiv.
Qed.

Lemma SFdiv_B : forall x y : bfloat,
  SFdiv prec64 emax64 (B2SF x) (B2SF y) = B2SF (Bdiv mode_NE x y).
Proof.
  intros [sx|sx| |sx mx ex Bx] [sy|sy| |sy my ey By]; try reflexivity.
  cbn. rewrite B2SF_SF2B. destruct (SFdiv_core_binary _ _ _ _ _ _) as [[mz ez] lz]. apply bra_equiv.
Qed.

Lemma br_equiv : forall s m e,
  SpecFloat.binary_round prec64 emax64 s m e = BinarySingleNaN.binary_round prec64 emax64 mode_NE s m e.
Proof.
  intros. unfold SpecFloat.binary_round, BinarySingleNaN.binary_round, shl_align_fexp.
  destruct (shl_align _ _ _). apply bra_equiv.
Qed.

Lemma bn_equiv : forall m e z,
  SpecFloat.binary_normalize prec64 emax64 m e z
  = B2SF (BinarySingleNaN.binary_normalize prec64 emax64 _ _ mode_NE m e z).
Proof.
  intros [|p|p] e z; [reflexivity| |]; cbn; rewrite B2SF_SF2B; apply br_equiv.
Qed.

Lemma SFadd_B : forall x y : bfloat,
  SFadd prec64 emax64 (B2SF x) (B2SF y) = B2SF (Bplus mode_NE x y).
Proof.
  intros [sx|sx| |sx mx ex Bx] [sy|sy| |sy my ey By]; try reflexivity;
    try (cbn; destruct (Bool.eqb _ _); reflexivity).
  apply bn_equiv.
Qed.

(** ** Truncation *)

Lemma f_trunc_R : forall u (b : bfloat), of_bits u = B2SF b -> is_finite b = true ->
  forall n : Z, - 2^63 <= n < 2^63 -> 0 <= n -> (IZR n <= B2R b < IZR (n + 1))%R -> f_trunc u = Some n.
Proof.
  intros u b E F n N P H. unfold f_trunc. rewrite E.
  destruct b as [s|s| |s m e Hb]; cbn [B2SF] in *; try discriminate F.
  - cbn [B2R] in H. f_equal.
    assert (n <= 0) by (apply le_IZR; apply H). lia.
  - cbn [B2R] in H. unfold F2R in H. cbn [Fnum Fexp] in H.
    assert (BP : (0 < bpow radix2 e)%R) by apply bpow_gt_0.
    destruct s.
    { cbn [cond_Zopp] in H. exfalso.
      assert (IZR (- Z.pos m) * bpow radix2 e < 0)%R.
      { assert (IZR (- Z.pos m) < 0)%R by (apply IZR_lt; lia). nra. }
      assert (0 <= IZR n)%R by (apply IZR_le; lia). lra. }
    cbn [cond_Zopp] in H.
    assert (A : (if 0 <=? e then Z.pos m * 2^e else Z.pos m / 2^(-e)) = n).
    { destruct (Z.leb_spec 0 e) as [E0|E0].
      - rewrite <- (IZR_Zpower radix2) in H by assumption. rewrite <- mult_IZR in H.
        destruct H as [H1 H2]. apply le_IZR in H1. apply lt_IZR in H2.
        change (Zpower radix2 e) with (2^e) in *. lia.
      - symmetry. apply Z.div_unique with (r := Z.pos m - 2^(-e) * n).
        2: lia.
        left.
        assert (BB : (bpow radix2 e * IZR (2^(-e)) = 1)%R).
        { change (2^(-e)) with (Zpower radix2 (-e)). rewrite IZR_Zpower by lia.
          rewrite <- bpow_plus. replace (e + - e) with 0 by lia. reflexivity. }
        assert (PP : (0 < IZR (2^(-e)))%R) by (apply IZR_lt; lia).
        assert (M : (IZR (Z.pos m) = IZR (Z.pos m) * bpow radix2 e * IZR (2^(-e)))%R).
        { rewrite Rmult_assoc, BB. ring. }
        destruct H as [H1 H2]. split.
        + apply Zle_minus_le_0. apply le_IZR. rewrite mult_IZR, M. nra.
        + apply Z.lt_sub_lt_add_l. apply lt_IZR. rewrite M, plus_IZR, mult_IZR. rewrite plus_IZR in H2. nra. }
    rewrite A. replace ((- 2^63 <=? n) && (n <? 2^63)) with true; [reflexivity|].
    symmetry. apply andb_true_iff. split; [apply Z.leb_le|apply Z.ltb_lt]; lia.
Qed.

(** ** Bounds *)

(** Relative rounding error, for numbers of magnitude at least 2^-1000. *)
Lemma rnd_rel : forall x, (bpow radix2 (-1000) <= x)%R ->
  exists d, (Rabs d <= bpow radix2 (-53))%R /\ rnd64 x = (x * (1 + d))%R.
Proof.
  intros x Hx.
  assert (Px : (0 < x)%R) by (eapply Rlt_le_trans; [apply bpow_gt_0|exact Hx]).
  assert (H := relative_error_N_FLT radix2 (SpecFloat.emin prec64 emax64) prec64 ltac:(reflexivity)
                 (fun x => negb (Z.even x)) x).
  rewrite Rabs_pos_eq in H by lra.
  assert (G : (bpow radix2 (SpecFloat.emin prec64 emax64 + prec64 - 1) <= x)%R).
  { eapply Rle_trans; [|exact Hx]. apply bpow_le. unfold SpecFloat.emin, prec64, emax64. lia. }
  specialize (H G). change (FLT_exp (SpecFloat.emin prec64 emax64) prec64) with fexp64 in H.
  exists ((rnd64 x - x) / x)%R. split.
  - unfold Rdiv. rewrite Rabs_mult, (Rabs_pos_eq (/ x)) by (left; apply Rinv_0_lt_compat; assumption).
    apply Rmult_le_reg_r with x; [assumption|]. rewrite Rmult_assoc, Rinv_l by lra.
    rewrite Rmult_1_r. eapply Rle_trans; [exact H|]. apply Req_le. f_equal.
    assert (B53 : (bpow radix2 (-53) = bpow radix2 (-1) * bpow radix2 (-prec64 + 1))%R)
      by (rewrite <- bpow_plus; reflexivity).
    rewrite B53. reflexivity.
  - field. lra.
Qed.

Lemma bpow_m53 : (bpow radix2 (-53) <= 1 / 1000000000000000)%R.
Proof.
  assert (bpow radix2 (-53) * IZR (2^53) = 1)%R.
  { change (2^53)%Z with (Zpower radix2 53). rewrite IZR_Zpower by lia. rewrite <- bpow_plus. reflexivity. }
  assert (IZR (2^53) >= 1000000000000000)%R by (apply Rle_ge; apply IZR_le; lia).
  assert (0 < bpow radix2 (-53))%R by apply bpow_gt_0. nra.
Qed.

Lemma bpow_small : forall x, (1 <= x)%R -> (bpow radix2 (-1000) <= x)%R.
Proof. intros x H. eapply Rle_trans; [|exact H]. change 1%R with (bpow radix2 0). apply bpow_le. lia. Qed.

Lemma bpow_half : (bpow radix2 (-1000) <= 1 / 2)%R.
Proof.
  assert (H : (bpow radix2 (-1000) <= bpow radix2 (-1))%R) by (apply bpow_le; lia).
  change (bpow radix2 (-1)) with (/ 2)%R in H. lra.
Qed.

(** The constants as Flocq floats. *)
Lemma acr_valid : valid_binary prec64 emax64 (of_bits SV_ACR) = true.
Proof. vm_compute. reflexivity. Qed.
Lemma half_valid : valid_binary prec64 emax64 (of_bits d_half) = true.
Proof. vm_compute. reflexivity. Qed.
Definition B_acr : bfloat := SF2B (of_bits SV_ACR) acr_valid.
Definition B_half : bfloat := SF2B (of_bits d_half) half_valid.

Definition acr_m : Z := 8406091369059075.
Definition acr_e : Z := 947.

Lemma B_acr_R : B2R B_acr = (IZR acr_m * bpow radix2 acr_e)%R.
Proof. unfold B_acr. rewrite B2R_SF2B. reflexivity. Qed.

Lemma B_half_R : B2R B_half = (1 / 2)%R.
Proof.
  unfold B_half. rewrite B2R_SF2B.
  change (of_bits d_half) with (S754_finite false 4503599627370496 (-53)).
  cbn [SF2R cond_Zopp]. unfold F2R. cbn [Fnum Fexp].
  assert (bpow radix2 (-53) * IZR (2^53) = 1)%R.
  { change (2^53)%Z with (Zpower radix2 53). rewrite IZR_Zpower by lia. rewrite <- bpow_plus. reflexivity. }
  change 4503599627370496%Z with (2^52)%Z.
  assert (IZR (2^53) = 2 * IZR (2^52))%R by (rewrite <- mult_IZR; f_equal).
  nra.
Qed.

(** The largest acronym number: 17976931 * 1E301 is still finite. *)
Definition ACR_MAX : Z := 17976931.

Lemma acr_in_range : forall n, 1 <= n <= ACR_MAX ->
  (rnd64 (B2R B_acr * IZR n) < bpow radix2 1024)%R.
Proof.
  intros n N. rewrite B_acr_R.
  (* below the largest finite double, which is representable *)
  set (mx := (IZR (2^53 - 1) * bpow radix2 971)%R).
  assert (LE : (IZR acr_m * bpow radix2 acr_e * IZR n <= mx)%R).
  { unfold mx, acr_m, acr_e. change 971 with (24 + 947). rewrite bpow_plus.
    assert (bpow radix2 24 = IZR (2^24)) as -> by (symmetry; apply (IZR_Zpower radix2); lia).
    assert (0 < bpow radix2 947)%R by apply bpow_gt_0.
    assert (IZR 8406091369059075 * IZR n <= IZR (2^53 - 1) * IZR (2^24))%R.
    { rewrite <- !mult_IZR. apply IZR_le. unfold ACR_MAX in N. lia. }
    nra. }
  assert (G : generic_format radix2 fexp64 mx).
  { apply generic_format_FLT. exists (Float radix2 (2^53 - 1) 971); cbn; [reflexivity|lia|].
    unfold SpecFloat.emin, prec64, emax64. lia. }
  eapply Rle_lt_trans.
  - apply round_le_generic; [apply FLT_exp_valid; reflexivity|apply valid_rnd_N|exact G|exact LE].
  - unfold mx. replace (bpow radix2 1024) with (IZR (2^53) * bpow radix2 971)%R.
    + apply Rmult_lt_compat_r; [apply bpow_gt_0|]. apply IZR_lt. lia.
    + change (2^53)%Z with (Zpower radix2 53). rewrite IZR_Zpower by lia. rewrite <- bpow_plus. reflexivity.
Qed.

(** A small integer is exactly representable. *)
Lemma fofZ_B : forall n, 1 <= n <= ACR_MAX ->
  exists b : bfloat, of_bits (fofZ n) = B2SF b /\ B2R b = IZR n /\ is_finite b = true.
Proof.
  intros n N. destruct n as [|p|p]; [lia| |lia].
  exists (BinarySingleNaN.binary_normalize prec64 emax64 _ _ mode_NE (Zpos p) 0 false).
  unfold fofZ. rewrite bn_equiv, of_to_B. split; [reflexivity|].
  assert (C := binary_normalize_correct prec64 emax64 _ _ mode_NE (Zpos p) 0 false). cbv zeta in C.
  change (round_mode mode_NE) with ZnearestE in C.
  assert (FR : F2R (Float radix2 (Z.pos p) 0) = IZR (Z.pos p)).
  { unfold F2R. cbn [Fnum Fexp bpow]. ring. }
  assert (RG : rnd64 (F2R (Float radix2 (Z.pos p) 0)) = IZR (Z.pos p)).
  { rewrite FR. apply round_generic; [apply valid_rnd_N|].
    apply generic_format_FLT. exists (Float radix2 (Z.pos p) 0).
    - symmetry. exact FR.
    - unfold prec64. cbn [Fnum Z.abs]. unfold ACR_MAX in N. change (radix2 ^ 53) with (2^53). cbn. lia.
    - cbn. unfold SpecFloat.emin, prec64, emax64. lia. }
  rewrite RG in C. rewrite Rlt_bool_true in C.
  - destruct C as (C1 & C2 & _). auto.
  - rewrite Rabs_pos_eq by (apply IZR_le; lia).
    change (bpow radix2 emax64) with (bpow radix2 (30 + 994)). rewrite bpow_plus.
    assert (IZR (Z.pos p) < bpow radix2 30)%R.
    { rewrite <- (IZR_Zpower radix2) by lia. apply IZR_lt. unfold ACR_MAX in N. cbn. lia. }
    assert (1 <= bpow radix2 994)%R by (change 1%R with (bpow radix2 0); apply bpow_le; lia).
    assert (0 < bpow radix2 30)%R by apply bpow_gt_0. nra.
Qed.

Lemma acr_value_B : forall n, 1 <= n <= ACR_MAX ->
  exists b : bfloat, of_bits (fmul SV_ACR (fofZ n)) = B2SF b /\ is_finite b = true
    /\ exists d, (Rabs d <= bpow radix2 (-53))%R /\ B2R b = (B2R B_acr * IZR n * (1 + d))%R.
Proof.
  intros n N. destruct (fofZ_B n N) as (bn & E & R & F).
  exists (Bmult mode_NE B_acr bn). unfold fmul. rewrite E.
  change (of_bits SV_ACR) with (B2SF B_acr). rewrite SFmul_B, of_to_B. split; [reflexivity|].
  assert (C := Bmult_correct prec64 emax64 _ _ mode_NE B_acr bn).
  change (round_mode mode_NE) with ZnearestE in C. rewrite R in C.
  assert (P : (0 < B2R B_acr)%R).
  { rewrite B_acr_R. apply Rmult_lt_0_compat; [apply IZR_lt; reflexivity|apply bpow_gt_0]. }
  assert (N1 : (1 <= IZR n)%R) by (apply IZR_le; lia).
  assert (A1 : (1 <= B2R B_acr)%R).
  { rewrite B_acr_R. assert (1 <= bpow radix2 acr_e)%R by (change 1%R with (bpow radix2 0); apply bpow_le; discriminate).
    assert (1 <= IZR acr_m)%R by (apply IZR_le; discriminate). nra. }
  destruct (rnd_rel (B2R B_acr * IZR n)) as (d & D1 & D2).
  { apply bpow_small. nra. }
  rewrite Rlt_bool_true in C.
  - destruct C as (C1 & C2 & _). split; [rewrite C2, F; reflexivity|].
    exists d. split; [assumption|]. rewrite C1. assumption.
  - rewrite Rabs_pos_eq; [apply acr_in_range; assumption|].
    rewrite D2. pose proof bpow_m53. apply Rabs_le_inv in D1. apply Rmult_le_pos; [nra|lra].
Qed.

Theorem acr_roundtrip : forall n, 1 <= n <= ACR_MAX ->
  d_round (fdiv (fmul SV_ACR (fofZ n)) SV_ACR) = Some n.
Proof.
  intros n N. destruct (acr_value_B n N) as (a & E & F & d & D & R).
  pose proof bpow_m53 as M53. apply Rabs_le_inv in D.
  assert (N1 : (1 <= IZR n)%R) by (apply IZR_le; lia).
  assert (N2 : (IZR n <= 17976931)%R) by (apply IZR_le; unfold ACR_MAX in N; lia).
  assert (P : (0 < B2R B_acr)%R).
  { rewrite B_acr_R. apply Rmult_lt_0_compat; [apply IZR_lt; reflexivity|apply bpow_gt_0]. }
  (* the quotient *)
  assert (Q : (B2R a / B2R B_acr = IZR n * (1 + d))%R) by (rewrite R; field; lra).
  destruct (rnd_rel (IZR n * (1 + d))) as (d2 & D2 & R2).
  { eapply Rle_trans with (1/2)%R; [|nra].
    apply bpow_half. }
  apply Rabs_le_inv in D2.
  assert (Cd := Bdiv_correct prec64 emax64 _ _ mode_NE a B_acr ltac:(lra)).
  change (round_mode mode_NE) with ZnearestE in Cd. rewrite Q, R2 in Cd.
  assert (MUL : forall x y, (0 <= x <= 20000000)%R -> (- bpow radix2 (-53) <= y <= bpow radix2 (-53))%R ->
            (- (1/10000000) <= x * y <= 1/10000000)%R).
  { intros x y Hx Hy. assert (- (1/1000000000000000) <= y <= 1/1000000000000000)%R by lra. nra. }
  assert (QB : (IZR n - 1/1000000 <= IZR n * (1 + d) * (1 + d2) <= IZR n + 1/1000000)%R).
  { assert (X1 := MUL (IZR n) d ltac:(lra) D). assert (X2 := MUL (IZR n * (1 + d))%R d2 ltac:(lra) D2). lra. }
  rewrite Rlt_bool_true in Cd.
  2:{ rewrite Rabs_pos_eq by lra. change (bpow radix2 emax64) with (bpow radix2 (30 + 994)). rewrite bpow_plus.
      assert (1 <= bpow radix2 994)%R by (change 1%R with (bpow radix2 0); apply bpow_le; lia).
      assert (bpow radix2 30 = IZR (2^30)) as -> by (symmetry; apply (IZR_Zpower radix2); lia).
      assert (IZR (2^30) >= 100000000)%R by (apply Rle_ge; apply IZR_le; lia). nra. }
  destruct Cd as (Cd1 & Cd2 & _). set (q := Bdiv mode_NE a B_acr) in *.
  assert (Fq : is_finite q = true) by congruence.
  unfold d_round.
  assert (Eq : of_bits (fdiv (fmul SV_ACR (fofZ n)) SV_ACR) = B2SF q).
  { unfold fdiv. rewrite E. change (of_bits SV_ACR) with (B2SF B_acr). rewrite SFdiv_B, of_to_B. reflexivity. }
  set (uq := fdiv (fmul SV_ACR (fofZ n)) SV_ACR) in *.
  assert (LE : fleb d_zero uq = true).
  { unfold fleb. rewrite Eq. change (of_bits d_zero) with (B2SF (B754_zero false : bfloat)).
    change (Bleb (B754_zero false) q = true). rewrite Bleb_correct by (reflexivity || assumption).
    apply Rle_bool_true. cbn [B2R]. rewrite Cd1. lra. }
  rewrite LE.
  (* the sum *)
  assert (Cs := Bplus_correct prec64 emax64 _ _ mode_NE q B_half Fq eq_refl).
  change (round_mode mode_NE) with ZnearestE in Cs. rewrite Cd1, B_half_R in Cs.
  set (qv := (IZR n * (1 + d) * (1 + d2))%R) in *.
  destruct (rnd_rel (qv + 1/2)) as (d3 & D3 & R3).
  { eapply Rle_trans with (1/2)%R; [|lra].
    apply bpow_half. }
  apply Rabs_le_inv in D3. rewrite R3 in Cs.
  assert (SB : (IZR n + 1/4 <= (qv + 1/2) * (1 + d3) <= IZR n + 3/4)%R).
  { assert (X3 := MUL (qv + 1/2)%R d3 ltac:(lra) D3). lra. }
  rewrite Rlt_bool_true in Cs.
  2:{ rewrite Rabs_pos_eq by lra. change (bpow radix2 emax64) with (bpow radix2 (30 + 994)). rewrite bpow_plus.
      assert (1 <= bpow radix2 994)%R by (change 1%R with (bpow radix2 0); apply bpow_le; lia).
      assert (bpow radix2 30 = IZR (2^30)) as -> by (symmetry; apply (IZR_Zpower radix2); lia).
      assert (IZR (2^30) >= 100000000)%R by (apply Rle_ge; apply IZR_le; lia). nra. }
  destruct Cs as (Cs1 & Cs2 & _).
  rewrite (f_trunc_R (fadd uq d_half) (Bplus mode_NE q B_half)) with (n := n).
  - unfold to_int32. f_equal. unfold ACR_MAX in N. rewrite signed_mod by lia. reflexivity.
  - unfold fadd. rewrite Eq. change (of_bits d_half) with (B2SF B_half). rewrite SFadd_B, of_to_B. reflexivity.
  - assumption.
  - unfold ACR_MAX in N. lia.
  - lia.
  - rewrite Cs1, plus_IZR. lra.
Qed.

(** Acronym values are recognisable: they are not below [SV_ACR]. *)
Lemma acr_ge : forall n, 1 <= n <= ACR_MAX -> fleb SV_ACR (fmul SV_ACR (fofZ n)) = true.
Proof.
  intros n N. destruct (Z.eq_dec n 1) as [->|N1]; [vm_compute; reflexivity|].
  destruct (acr_value_B n N) as (a & E & F & d & D & R).
  pose proof bpow_m53 as M53. apply Rabs_le_inv in D.
  assert (N2 : (2 <= IZR n)%R) by (apply IZR_le; lia).
  assert (P : (0 < B2R B_acr)%R).
  { rewrite B_acr_R. apply Rmult_lt_0_compat; [apply IZR_lt; reflexivity|apply bpow_gt_0]. }
  unfold fleb. rewrite E. change (of_bits SV_ACR) with (B2SF B_acr).
  change (Bleb B_acr a = true). rewrite Bleb_correct by (reflexivity || assumption).
  apply Rle_bool_true. rewrite R.
  assert (1 <= IZR n * (1 + d))%R by nra.
  rewrite Rmult_assoc. rewrite <- (Rmult_1_r (B2R B_acr)) at 1. apply Rmult_le_compat_l; lra.
Qed.

Lemma fmul_comm : forall x y, fmul x y = fmul y x.
Proof.
  intros x y. unfold fmul. f_equal. unfold SFmul.
  destruct (of_bits x) as [s|s| |s m e], (of_bits y) as [s'|s'| |s' m' e']; try reflexivity;
    try (rewrite xorb_comm; reflexivity).
  rewrite (xorb_comm s), (Pos.mul_comm m), (Z.add_comm e). reflexivity.
Qed.

Lemma fltb_fleb_contra : forall x, fltb x SV_UNDEF = true -> fleb SV_ACR x = true -> False.
Proof.
  intros x L G. unfold fltb, fleb, SFltb, SFleb in *.
  change (of_bits SV_UNDEF) with (S754_finite false 6724873095247260 944) in L.
  change (of_bits SV_ACR) with (S754_finite false 8406091369059075 947) in G.
  destruct (of_bits x) as [s|s| |s m e]; try discriminate; try (destruct s; discriminate).
  destruct s; cbn [SFcompare] in *; [discriminate|].
  destruct (Z.compare_spec e 944); try (subst; discriminate); try lia;
    destruct (Z.compare_spec 947 e); try discriminate; try lia.
Qed.

(** Every pattern is a number of the format. *)
Lemma of_bits_valid : forall u, valid_binary prec64 emax64 (of_bits u) = true.
Proof.
  intros u. unfold of_bits.
  assert (M : 0 <= d_mant u < 2^52) by (apply Z.mod_pos_bound; lia).
  assert (E : 0 <= d_exp u < 2048) by (apply Z.mod_pos_bound; lia).
  assert (V : forall m e, (2^52 <= Zpos m < 2^53 /\ -1074 <= e <= 971) \/ (Zpos m < 2^53 /\ e = -1074) -> valid_binary prec64 emax64 (S754_finite (d_sign u) m e) = true).
  { intros m e C. cbn [valid_binary]. unfold bounded, canonical_mantissa, SpecFloat.fexp, SpecFloat.emin, prec64, emax64.
    assert (D := Digits.Zpos_digits2_pos m).
    change (Digits.digits2_pos m) with (SpecFloat.digits2_pos m) in D. rewrite D.
    assert (H := Digits.Zdigits_correct radix2 (Zpos m)). cbn [Z.abs] in H.
    set (d := Digits.Zdigits radix2 (Zpos m)) in *.
    assert (DP : 0 < d) by (apply Digits.Zdigits_gt_0; discriminate).
    assert (PW : forall k, 0 <= k -> Zpower radix2 k = 2 ^ k) by (intros; reflexivity).
    rewrite !PW in H by lia.
    assert (D53 : d <= 53). { destruct (Z.le_gt_cases d 53); [assumption|]. exfalso. assert (2 ^ 53 <= 2 ^ (d - 1)) by (apply Z.pow_le_mono_r; lia). lia. }
    apply andb_true_iff. split; [|apply Z.leb_le; lia]. apply Zeq_is_eq_bool.
    destruct C as [[C1 C2]|[C1 C2]]; [|lia].
    assert (52 < d). { destruct (Z.le_gt_cases d 52); [|assumption]. exfalso. assert (2 ^ d <= 2 ^ 52) by (apply Z.pow_le_mono_r; lia). lia. }
    lia. }
  destruct (Z.eqb_spec (d_exp u) 0).
  - destruct (d_mant u) as [|m|m] eqn:MM; try reflexivity. apply V. right. lia.
  - destruct (Z.eqb_spec (d_exp u) 2047); [destruct (d_mant u =? 0); reflexivity|].
    destruct (2^52 + d_mant u) as [|m|m] eqn:MM; try lia. apply V. left. lia.
Qed.

(** A value of at least 1E301 that is a number has an acronym number. *)
Theorem acr_round_total : forall x, fleb SV_ACR x = true -> dblInfo x = DBL_FINITE -> exists n, d_round (fdiv x SV_ACR) = Some n /\ 1 <= n <= ACR_MAX + 1.
Proof.
  intros x GE FI. set (a := SF2B (of_bits x) (of_bits_valid x)).
  assert (E : of_bits x = B2SF a) by (unfold a; rewrite B2SF_SF2B; reflexivity).
  assert (F : is_finite a = true).
  { rewrite <- is_finite_SF_B2SF, <- E. unfold dblInfo in FI. unfold of_bits.
    destruct (Z.eqb_spec (d_exp x) 0); [destruct (d_mant x); reflexivity|]. destruct (d_exp x =? 2047).
    - destruct (d_mant x =? 0); [destruct (d_sign x)|]; discriminate.
    - assert (M : 0 <= d_mant x < 2^52) by (apply Z.mod_pos_bound; lia). destruct (2^52 + d_mant x) eqn:Q; [lia|reflexivity|lia]. }
  clearbody a.
  assert (P : (0 < B2R B_acr)%R).
  { rewrite B_acr_R. apply Rmult_lt_0_compat; [apply IZR_lt; reflexivity|apply bpow_gt_0]. }
  assert (A1 : (B2R B_acr <= B2R a)%R).
  { unfold fleb in GE. rewrite E in GE. change (of_bits SV_ACR) with (B2SF B_acr) in GE. change (Bleb B_acr a = true) in GE.
    rewrite Bleb_correct in GE by (reflexivity || assumption). destruct (Rle_bool_spec (B2R B_acr) (B2R a)); [assumption|discriminate]. }
  assert (A2 : (B2R a <= B2R B_acr * 17976932)%R).
  { assert (H := abs_B2R_lt_emax prec64 emax64 a). rewrite Rabs_pos_eq in H by lra. apply Rlt_le. eapply Rlt_le_trans; [exact H|].
    rewrite B_acr_R. unfold acr_m, acr_e. change (bpow radix2 emax64) with (bpow radix2 (77 + 947)). rewrite bpow_plus.
    assert (bpow radix2 77 = IZR (2^77)) as -> by (symmetry; apply (IZR_Zpower radix2); lia).
    assert (0 < bpow radix2 947)%R by apply bpow_gt_0.
    assert (IZR (2^77) <= IZR 8406091369059075 * 17976932)%R by (rewrite <- mult_IZR; apply IZR_le; lia). nra. }
  assert (Q1 : (1 <= B2R a / B2R B_acr <= 17976932)%R).
  { assert ((B2R a / B2R B_acr) * B2R B_acr = B2R a)%R by (field; lra). split; nra. }
  set (q0 := (B2R a / B2R B_acr)%R) in *.
  assert (GF : forall n, Z.abs n <= 2^53 - 1 -> generic_format radix2 fexp64 (IZR n)).
  { intros n N. apply generic_format_FLT. exists (Float radix2 n 0).
    - unfold F2R. cbn [Fnum Fexp bpow]. ring.
    - cbn [Fnum]. unfold prec64. change (radix2 ^ 53) with (2^53). lia.
    - cbn. unfold SpecFloat.emin, prec64, emax64. lia. }
  assert (Q2 : (1 <= rnd64 q0 <= 17976932)%R).
  { split; [apply round_ge_generic; [apply FLT_exp_valid; reflexivity|apply valid_rnd_N|apply (GF 1); lia|lra]
           |apply round_le_generic; [apply FLT_exp_valid; reflexivity|apply valid_rnd_N|apply (GF 17976932); lia|lra]]. }
  assert (BIG : (17976933 < bpow radix2 emax64)%R).
  { change (bpow radix2 emax64) with (bpow radix2 (30 + 994)). rewrite bpow_plus.
    assert (1 <= bpow radix2 994)%R by (change 1%R with (bpow radix2 0); apply bpow_le; lia).
    assert (bpow radix2 30 = IZR (2^30)) as -> by (symmetry; apply (IZR_Zpower radix2); lia).
    assert (IZR (2^30) >= 100000000)%R by (apply Rle_ge; apply IZR_le; lia). nra. }
  assert (Cd := Bdiv_correct prec64 emax64 _ _ mode_NE a B_acr ltac:(lra)).
  change (round_mode mode_NE) with ZnearestE in Cd. fold q0 in Cd.
  rewrite Rlt_bool_true in Cd by (rewrite Rabs_pos_eq by lra; lra).
  destruct Cd as (Cd1 & Cd2 & _). set (q := Bdiv mode_NE a B_acr) in *.
  assert (Fq : is_finite q = true) by congruence.
  unfold d_round.
  assert (Eq : of_bits (fdiv x SV_ACR) = B2SF q).
  { unfold fdiv. rewrite E. change (of_bits SV_ACR) with (B2SF B_acr). rewrite SFdiv_B, of_to_B. reflexivity. }
  set (uq := fdiv x SV_ACR) in *.
  assert (LE : fleb d_zero uq = true).
  { unfold fleb. rewrite Eq. change (of_bits d_zero) with (B2SF (B754_zero false : bfloat)).
    change (Bleb (B754_zero false) q = true). rewrite Bleb_correct by (reflexivity || assumption).
    apply Rle_bool_true. cbn [B2R]. rewrite Cd1. lra. }
  rewrite LE.
  assert (Cs := Bplus_correct prec64 emax64 _ _ mode_NE q B_half Fq eq_refl).
  change (round_mode mode_NE) with ZnearestE in Cs. rewrite Cd1, B_half_R in Cs.
  assert (GH : generic_format radix2 fexp64 (17976932 + 1/2)).
  { apply generic_format_FLT. exists (Float radix2 35953865 (-1)).
    - unfold F2R. cbn [Fnum Fexp]. change (bpow radix2 (-1)) with (/ 2)%R. lra.
    - cbn [Fnum]. unfold prec64. change (radix2 ^ 53) with (2^53). lia.
    - cbn. unfold SpecFloat.emin, prec64, emax64. lia. }
  assert (Q3 : (1 <= rnd64 (rnd64 q0 + 1/2) <= 17976932 + 1/2)%R).
  { split; [apply round_ge_generic; [apply FLT_exp_valid; reflexivity|apply valid_rnd_N|apply (GF 1); lia|lra]
           |apply round_le_generic; [apply FLT_exp_valid; reflexivity|apply valid_rnd_N|exact GH|lra]]. }
  rewrite Rlt_bool_true in Cs by (rewrite Rabs_pos_eq by lra; lra).
  destruct Cs as (Cs1 & Cs2 & _).
  set (sv := rnd64 (rnd64 q0 + 1/2)) in *. set (n := Zfloor sv).
  assert (N1 : (IZR n <= sv < IZR (n + 1))%R) by (rewrite plus_IZR; split; [apply Zfloor_lb|apply Zfloor_ub]).
  assert (N2 : 1 <= n <= ACR_MAX + 1).
  { split.
    - apply Zfloor_lub. lra.
    - unfold ACR_MAX. apply le_IZR. assert (n < 17976933); [|apply IZR_le; lia]. apply lt_IZR. lra. }
  exists n. split; [|exact N2]. unfold ACR_MAX in N2.
  rewrite (f_trunc_R (fadd uq d_half) (Bplus mode_NE q B_half)) with (n := n).
  - unfold to_int32. f_equal. rewrite signed_mod by lia. reflexivity.
  - unfold fadd. rewrite Eq. change (of_bits d_half) with (B2SF B_half). rewrite SFadd_B, of_to_B. reflexivity.
  - assumption.
  - lia.
  - lia.
  - rewrite Cs1. exact N1.
Qed.
