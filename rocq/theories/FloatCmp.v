(** * FloatCmp: subtraction, absolute value and comparison of doubles as real numbers *)

From Coq Require Import Reals Lra Floats.SpecFloat.
From Flocq Require Import Core BinarySingleNaN Relative Plus_error.
From Verif Require Import Base Values FloatAcr.

Local Instance prec64_gt_0 : Prec_gt_0 prec64 := eq_refl.
Local Instance prec64_lt_emax : Prec_lt_emax prec64 emax64 := eq_refl.

(** The pattern [u] stands for the finite number [x]. *)
Definition num (u : Z) (x : R) : Prop := exists b : bfloat, of_bits u = B2SF b /\ is_finite b = true /\ B2R b = x.

Lemma num_unique : forall u x y, num u x -> num u y -> x = y.
Proof. intros u x y (b & E & _ & <-) (c & F & _ & <-). f_equal. apply B2SF_inj. congruence. Qed.
Lemma num_format : forall u x, num u x -> generic_format radix2 fexp64 x.
Proof. intros u x (b & _ & _ & <-). apply generic_format_B2R. Qed.
(** Every pattern but those of infinities and NaN stands for a number. *)
Lemma num_some : forall u, d_exp u <> 2047 -> exists x, num u x.
Proof.
  intros u N. exists (B2R (SF2B (of_bits u) (of_bits_valid u))). exists (SF2B (of_bits u) (of_bits_valid u)). split; [symmetry; apply B2SF_SF2B|]. split; [|reflexivity].
  rewrite is_finite_SF2B. unfold of_bits. destruct (d_exp u =? 0); [destruct (d_mant u); reflexivity|]. destruct (Z.eqb_spec (d_exp u) 2047); [contradiction|].
  pose proof (Z.mod_pos_bound u (2^52) ltac:(lia)). unfold d_mant. destruct (2^52 + u mod 2^52) eqn:E; [lia|reflexivity|lia].
Qed.
Lemma num_zero : num 0 0.
Proof. exists (B754_zero false). split; [reflexivity|]. split; reflexivity. Qed.

Lemma SFsub_B : forall x y : bfloat, SFsub prec64 emax64 (B2SF x) (B2SF y) = B2SF (Bminus mode_NE x y).
Proof.
  intros [sx|sx| |sx mx ex Bx] [sy|sy| |sy my ey By]; try (destruct sy; reflexivity); try reflexivity;
    try (cbn; destruct sx, sy; reflexivity).
  cbn [B2SF SFsub Bminus]. etransitivity; [apply bn_equiv|]. f_equal. unfold Fplus_naive. f_equal.
  destruct sy; cbn [cond_Zopp negb]; lia.
Qed.

(** [std::abs] clears the sign bit. *)
Lemma abs_bits : forall u, 0 <= u < 2^64 -> of_bits (u mod 2^63) = match of_bits u with S754_zero _ => S754_zero false | S754_infinity _ => S754_infinity false | S754_nan => S754_nan | S754_finite _ m e => S754_finite false m e end.
Proof.
  intros u B. assert (SG : d_sign (u mod 2^63) = false) by (unfold d_sign; apply Z.leb_gt; apply Z.mod_pos_bound; lia).
  assert (MA : d_mant (u mod 2^63) = d_mant u).
  { unfold d_mant. replace (2^63) with (2^52 * 2^11) by reflexivity. rewrite Z.rem_mul_r by lia. rewrite Z.mul_comm, Z.mod_add by lia. apply Z.mod_mod. lia. }
  assert (EX : d_exp (u mod 2^63) = d_exp u).
  { unfold d_exp. replace (2^63) with (2^52 * 2^11) by reflexivity. rewrite Z.rem_mul_r by lia. rewrite (Z.mul_comm (2^52)), Z.div_add by lia.
    rewrite (Z.div_small (u mod 2^52)) by (apply Z.mod_pos_bound; lia). apply Z.mod_mod. lia. }
  unfold of_bits. rewrite SG, MA, EX. destruct (d_exp u =? 0); [destruct (d_mant u); reflexivity|]. destruct (d_exp u =? 2047); [destruct (d_mant u =? 0); reflexivity|]. destruct (2^52 + d_mant u); reflexivity.
Qed.
Lemma num_abs : forall u x, 0 <= u < 2^64 -> num u x -> num (u mod 2^63) (Rabs x).
Proof.
  intros u x B (b & E & F & <-). exists (Babs b). split; [rewrite (abs_bits u B), E; destruct b as [[]|[]| |[] m e H]; reflexivity|]. split; [rewrite is_finite_Babs; exact F|apply B2R_Babs].
Qed.
Lemma to_bits_bound : forall f, valid_binary prec64 emax64 f = true -> 0 <= to_bits f < 2^64.
Proof.
  intros [s|s| |s m e] V; [destruct s; unfold to_bits; lia|destruct s; unfold to_bits; lia|unfold to_bits; lia|].
  cbn [valid_binary] in V. unfold bounded in V. apply andb_true_iff in V. destruct V as [V1 V2].
  apply Z.leb_le in V2. unfold canonical_mantissa in V1. apply Zeq_bool_eq in V1. unfold SpecFloat.fexp, SpecFloat.emin, prec64, emax64 in *.
  assert (D := Digits.Zpos_digits2_pos m). change (Digits.digits2_pos m) with (SpecFloat.digits2_pos m) in D. rewrite D in V1.
  assert (C := Digits.Zdigits_correct radix2 (Zpos m)). cbn [Z.abs] in C. set (d := Digits.Zdigits radix2 (Zpos m)) in *.
  assert (DP : 0 < d) by (apply Digits.Zdigits_gt_0; discriminate).
  assert (PW : forall k, 0 <= k -> Zpower radix2 k = 2 ^ k) by (intros; reflexivity).
  assert (H53 : Zpos m < 2 ^ 53) by (eapply Z.lt_le_trans; [apply C|]; rewrite PW by lia; apply Z.pow_le_mono_r; lia).
  unfold to_bits. destruct (Z.ltb_spec (Zpos m) (2^52)); destruct s; lia.
Qed.

Lemma fleb_num : forall u v x y, num u x -> num v y -> (fleb u v = true <-> (x <= y)%R).
Proof.
  intros u v x y (b & E & F & <-) (c & E' & F' & <-). unfold fleb. rewrite E, E'. change (SFleb (B2SF b) (B2SF c)) with (Bleb b c). rewrite (Bleb_correct _ _ b c F F').
  destruct (Rle_bool_spec (B2R b) (B2R c)); split; intros; try reflexivity; try assumption; try discriminate. lra.
Qed.
Lemma fltb_num : forall u v x y, num u x -> num v y -> (fltb u v = true <-> (x < y)%R).
Proof.
  intros u v x y (b & E & F & <-) (c & E' & F' & <-). unfold fltb. rewrite E, E'. change (SFltb (B2SF b) (B2SF c)) with (Bltb b c). rewrite (Bltb_correct _ _ b c F F').
  destruct (Rlt_bool_spec (B2R b) (B2R c)); split; intros; try reflexivity; try assumption; try discriminate. lra.
Qed.

(** The distance of two numbers as the tool computes it: the rounded distance, or infinity. *)
Lemma distance_num : forall u v x y, num u x -> num v y ->
  num ((fsub u v) mod 2^63) (rnd64 (Rabs (x - y))) \/
  (of_bits ((fsub u v) mod 2^63) = S754_infinity false /\ (bpow radix2 emax64 <= rnd64 (Rabs (x - y)))%R).
Proof.
  intros u v x y (b & E & F & <-) (c & E' & F' & <-).
  assert (S : fsub u v = to_bits (B2SF (Bminus mode_NE b c))) by (unfold fsub; rewrite E, E', SFsub_B; reflexivity).
  assert (B : 0 <= fsub u v < 2^64) by (rewrite S; apply to_bits_bound, valid_binary_B2SF).
  assert (A : rnd64 (Rabs (B2R b - B2R c)) = Rabs (rnd64 (B2R b - B2R c))) by (apply round_NE_abs; apply fexp_correct; reflexivity).
  pose proof (Bminus_correct prec64 emax64 _ _ mode_NE b c F F') as H. rewrite A. cbn [round_mode] in H.
  destruct (Rlt_bool_spec (Rabs (rnd64 (B2R b - B2R c))) (bpow radix2 emax64)) as [L|L].
  - destruct H as (H1 & H2 & _). left. rewrite <- H1. apply num_abs; [exact B|]. exists (Bminus mode_NE b c). split; [rewrite S; apply of_to_B|]. split; [exact H2|reflexivity].
  - destruct H as [H1 _]. right. split; [|exact L]. rewrite (abs_bits _ B), S, of_to_B, H1. reflexivity.
Qed.
Lemma distance_zero : forall u v x y, num u x -> num v y -> rnd64 (Rabs (x - y)) = 0%R -> x = y.
Proof.
  intros u v x y X Y H. destruct (Req_dec (x - y) 0) as [Z|N]; [lra|]. exfalso.
  assert (N' : (Rabs (x - y) <> 0)%R) by (apply Rabs_no_R0; exact N).
  rewrite (round_NE_abs radix2 fexp64) in H by (apply fexp_correct; reflexivity).
  apply Rabs_eq_R0 in H. revert H. unfold Rminus. apply (round_plus_neq_0 radix2 fexp64 ZnearestE); [apply (num_format u); exact X|apply generic_format_opp, (num_format v); exact Y|exact N].
Qed.
Lemma num_below : forall u x, num u x -> (Rabs x < bpow radix2 emax64)%R.
Proof. intros u x (b & _ & _ & <-). apply abs_B2R_lt_emax. Qed.
Lemma infinity_above : forall u v x, of_bits u = S754_infinity false -> num v x -> fleb u v = false.
Proof. intros u v x E (b & E' & F & _). unfold fleb. rewrite E, E'. destruct b as [[]|[]| |[] m e H]; try discriminate F; reflexivity. Qed.
(** The distance is not above a limit. *)
Lemma distance_leb : forall u v e x y t, num u x -> num v y -> num e t -> (fleb ((fsub u v) mod 2^63) e = true <-> (rnd64 (Rabs (x - y)) <= t)%R).
Proof.
  intros u v e x y t X Y T. destruct (distance_num u v x y X Y) as [D|[D L]]; [apply fleb_num; assumption|].
  rewrite (infinity_above _ _ _ D T). split; [discriminate|]. intros H. exfalso. pose proof (num_below _ _ T). pose proof (Rle_abs t). lra.
Qed.

Local Instance valid_exp64 : Valid_exp fexp64 := fexp_correct prec64 emax64 eq_refl.
Lemma round_NE_pos : forall x, (0 <= rnd64 (Rabs x))%R.
Proof. intros x. rewrite <- (round_0 radix2 fexp64 ZnearestE). apply round_le; try typeclasses eauto. apply Rabs_pos. Qed.
Lemma round_NE_zero : rnd64 (Rabs 0) = 0%R.
Proof. rewrite Rabs_R0. apply round_0. typeclasses eauto. Qed.
Lemma round_NE_le : forall x t, generic_format radix2 fexp64 t -> (x <= t)%R -> (rnd64 x <= t)%R.
Proof. intros x t F L. rewrite <- (round_generic radix2 fexp64 ZnearestE t F). apply round_le; try typeclasses eauto. exact L. Qed.

(** The distance does not depend on the order. *)
Lemma distance_sym : forall u v x y, num u x -> num v y -> of_bits ((fsub u v) mod 2^63) = of_bits ((fsub v u) mod 2^63).
Proof.
  assert (ONE : forall b c : bfloat, is_finite b = true -> is_finite c = true -> forall u v, of_bits u = B2SF b -> of_bits v = B2SF c ->
    (Rabs (rnd64 (B2R b - B2R c)) < bpow radix2 emax64)%R /\ of_bits (fsub u v mod 2^63) = B2SF (Babs (Bminus mode_NE b c)) /\ B2R (Babs (Bminus mode_NE b c)) = Rabs (rnd64 (B2R b - B2R c)) /\ is_finite (Babs (Bminus mode_NE b c)) = true \/
    (bpow radix2 emax64 <= Rabs (rnd64 (B2R b - B2R c)))%R /\ of_bits (fsub u v mod 2^63) = S754_infinity false).
  { intros b c F F' u v E E'.
    assert (S : fsub u v = to_bits (B2SF (Bminus mode_NE b c))) by (unfold fsub; rewrite E, E', SFsub_B; reflexivity).
    assert (B : 0 <= fsub u v < 2^64) by (rewrite S; apply to_bits_bound, valid_binary_B2SF).
    pose proof (Bminus_correct prec64 emax64 _ _ mode_NE b c F F') as H. cbn [round_mode] in H.
    destruct (Rlt_bool_spec (Rabs (rnd64 (B2R b - B2R c))) (bpow radix2 emax64)) as [L|L]; [left|right]; (split; [exact L|]).
    - destruct H as (H1 & H2 & _). split; [rewrite (abs_bits _ B), S, of_to_B; destruct (Bminus mode_NE b c) as [[]|[]| |[] ? ? ?]; reflexivity|]. split; [rewrite B2R_Babs, H1; reflexivity|rewrite is_finite_Babs; exact H2].
    - destruct H as [H1 _]. rewrite (abs_bits _ B), S, of_to_B, H1. reflexivity. }
  intros u v x y (b & E & F & _) (c & E' & F' & _).
  assert (RS : Rabs (rnd64 (B2R c - B2R b)) = Rabs (rnd64 (B2R b - B2R c))).
  { rewrite <- !round_NE_abs by typeclasses eauto. rewrite Rabs_minus_sym. reflexivity. }
  destruct (ONE b c F F' u v E E') as [(L1 & A1 & A2 & A3)|[L1 A1]], (ONE c b F' F v u E' E) as [(L2 & B1 & B2 & B3)|[L2 B1]]; rewrite RS in *; try lra.
  - rewrite A1, B1. f_equal. apply B2R_Bsign_inj; [exact A3|exact B3|congruence|]. destruct (Bminus mode_NE c b), (Bminus mode_NE b c); try discriminate; reflexivity.
  - rewrite A1, B1. reflexivity.
Qed.
Lemma abs_same : forall u v x y, 0 <= u < 2^64 -> 0 <= v < 2^64 -> num u x -> num v y -> Rabs x = Rabs y -> of_bits (u mod 2^63) = of_bits (v mod 2^63).
Proof.
  intros u v x y BU BV (b & E & F & <-) (c & E' & F' & <-) H.
  assert (A : forall w (a : bfloat), 0 <= w < 2^64 -> of_bits w = B2SF a -> of_bits (w mod 2^63) = B2SF (Babs a)) by (intros w a B EQ; rewrite (abs_bits w B), EQ; destruct a as [[]|[]| |[] ? ? ?]; reflexivity).
  rewrite (A u b BU E), (A v c BV E'). f_equal. apply B2R_Bsign_inj; [rewrite is_finite_Babs; exact F|rewrite is_finite_Babs; exact F'|rewrite !B2R_Babs; exact H|].
  destruct b, c; try discriminate; reflexivity.
Qed.
(** A larger limit. *)
Lemma fleb_larger : forall u s t x y, num s x -> num t y -> (x <= y)%R -> fleb u s = true -> fleb u t = true.
Proof.
  intros u s t x y S T L H. pose proof (B2SF_SF2B _ _ (of_bits u) (of_bits_valid u)) as E. set (b := SF2B (of_bits u) (of_bits_valid u)) in *. clearbody b. destruct (is_finite b) eqn:F.
  - assert (U : num u (B2R b)) by (exists b; auto). apply (fleb_num _ _ _ _ U S) in H. apply (fleb_num _ _ _ _ U T). lra.
  - destruct S as (c & ES & FS & _), T as (d & ET & FT & _). unfold fleb in *. rewrite <- E, ES in H. rewrite <- E, ET. destruct b as [?|[]| |? ? ? ?]; try discriminate F; try discriminate H;
      destruct c as [[]|[]| |[] ? ? ?]; try discriminate FS; try discriminate H; destruct d as [[]|[]| |[] ? ? ?]; try discriminate FT; reflexivity.
Qed.
