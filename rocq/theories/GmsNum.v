(** * GmsNum: the packed integers and doubles of the stream layer

    src/gdlib/gmsstrm.cpp 879-1044. *)

From Coq Require Import Floats.SpecFloat.
From Verif Require Import Base Prim Values.

(** ** Integers *)

(** The while loop of WriteGmsInteger: the bytes of [n], least significant first. *)
Fixpoint gint_bytes (fuel : nat) (n : Z) : list Z :=
  match fuel with
  | O => []
  | S k => if n =? 0 then [] else n mod 256 :: gint_bytes k (n / 256)
  end.

(** WriteGmsInteger, gmsstrm.cpp 879-902.  -INT_MIN overflows. *)
Definition enc_gint (n : Z) : outcome (list Z) :=
  if n =? INT_MIN then UB
  else
    let a := Z.abs n in
    let w := gint_bytes 4 (a / 16) in
    Done (((if 0 <=? n then 0 else 128) + a mod 16 + 16 * zlen w) :: w).

(** ReadGmsInteger, gmsstrm.cpp 983-1009; more than 4 data bytes overrun the local array. *)
Definition p_gint : list Z -> outcome (option (Z * list Z)) :=
  fun l => match l with
  | [] => Done None
  | b :: r =>
      let c := (b / 16) mod 8 in
      if 4 <? c then UB
      else match ptake (Z.to_nat c) r with
           | None => Done None
           | Some (w, r') =>
               let v := le_val w * 16 + b mod 16 in
               if INT_MAX <? v then UB
               else Done (Some (if 128 <=? b then - v else v, r'))
           end
  end.

Lemma gint_bytes_spec : forall k n, 0 <= n < 256 ^ Z.of_nat k ->
  le_val (gint_bytes k n) = n /\ (length (gint_bytes k n) <= k)%nat /\ bytes_ok (gint_bytes k n).
Proof.
  induction k as [| k IH]; intros n H.
  - cbn in *. split; [lia|]. split; [lia|constructor].
  - cbn [gint_bytes]. destruct (Z.eqb_spec n 0).
    + subst. cbn. split; [reflexivity|]. split; [lia|constructor].
    + rewrite Nat2Z.inj_succ, Z.pow_succ_r in H by lia.
      destruct (IH (n / 256)) as (I1 & I2 & I3); [lia|].
      cbn [le_val length]. split; [rewrite I1; lia|]. split; [lia|].
      constructor; [unfold byte_ok; lia|assumption].
Qed.

Lemma gint_roundtrip : forall n rest, int_ok n -> n <> INT_MIN ->
  exists bs, enc_gint n = Done bs /\ p_gint (bs ++ rest) = Done (Some (n, rest)).
Proof.
  intros n rest I NM. unfold enc_gint. destruct (Z.eqb_spec n INT_MIN); [congruence|].
  unfold int_ok, INT_MIN, INT_MAX in *.
  set (a := Z.abs n). assert (A : 0 <= a <= 2147483647) by (unfold a; lia).
  destruct (gint_bytes_spec 4 (a / 16)) as (G1 & G2 & G3); [cbn; lia|].
  set (w := gint_bytes 4 (a / 16)) in *.
  eexists. split; [reflexivity|]. cbn [app p_gint].
  assert (LW : 0 <= zlen w <= 4) by (unfold zlen; lia).
  set (b := (if 0 <=? n then 0 else 128) + a mod 16 + 16 * zlen w).
  assert (B16 : b / 16 mod 8 = zlen w).
  { unfold b. destruct (0 <=? n); lia. }
  assert (BM : b mod 16 = a mod 16) by (unfold b; destruct (0 <=? n); lia).
  assert (BS : (128 <=? b) = negb (0 <=? n)).
  { unfold b. destruct (Z.leb_spec 0 n); cbn [negb]; [apply Z.leb_gt|apply Z.leb_le]; lia. }
  rewrite B16, BM, BS. destruct (Z.ltb_spec 4 (zlen w)); [lia|].
  unfold zlen. rewrite Nat2Z.id, ptake_app, G1.
  replace (a / 16 * 16 + a mod 16) with a by lia.
  unfold INT_MAX. destruct (Z.ltb_spec 2147483647 a); [lia|].
  destruct (Z.leb_spec 0 n); cbn [negb]; do 2 f_equal; f_equal; unfold a; lia.
Qed.

(** ** Doubles *)

Inductive gmsval := xvreal | xvund | xvna | xvpin | xvmin | xveps | xvacr.

Definition d_1em5 : Z := 0x3EE4F8B588E368F1. (* 1.0e-5 *)
Definition fabs (x : Z) : Z := x mod 2^63.

(** mapval, gmsstrm.cpp 915-926; [None]: the conversion to int is undefined. *)
Definition mapval (x : Z) : option gmsval :=
  if fltb x SV_UNDEF then Some xvreal
  else if fleb SV_ACR x then Some xvacr
  else
    let q := fdiv x SV_UNDEF in
    match d_round q with
    | None => None
    | Some k =>
        if fltb d_1em5 (fabs (fsub (fofZ k) q)) then Some xvund
        else Some (if k =? 1 then xvund else if k =? 2 then xvna else if k =? 3 then xvpin
                   else if k =? 4 then xvmin else if k =? 5 then xveps else xvacr)
    end.

Definition gmsval_code (g : gmsval) : Z :=
  match g with xvreal => 0 | xvund => 1 | xvna => 2 | xvpin => 3 | xvmin => 4 | xveps => 5 | xvacr => 6 end.

(** The number of leading zero bytes, and the rest. *)
Fixpoint strip_zeros (l : list Z) : Z * list Z :=
  match l with
  | [] => (0, [])
  | b :: r => if b =? 0 then let '(c, t) := strip_zeros r in (c + 1, t) else (0, l)
  end.

(** WriteGmsDouble, gmsstrm.cpp 928-981, on a little-endian machine (NormalOrder). *)
Definition enc_gdbl (d : Z) : outcome (list Z) :=
  match mapval d with
  | None => UB
  | Some g =>
      let b := match g with
               | xvreal => if feqb d d_zero then 7 else if feqb d d_one then 8
                           else if feqb d d_mone then 9 else 0
               | _ => gmsval_code g
               end in
      if b =? 0 then
        let '(c, t) := strip_zeros (le_bytes 8 d) in Done ((128 + c) :: t)
      else match g with
           | xvacr => match d_round (fdiv d SV_ACR) with
                      | None => UB
                      | Some n => obind (enc_gint n) (fun w => Done (b :: w))
                      end
           | _ => Done [b]
           end
  end.

(** bToRes, gmsstrm.cpp 1013. *)
Definition gdbl_table : list Z :=
  [SV_UNDEF; SV_NA; SV_PINF; SV_MINF; SV_EPS; SV_ACR; d_zero; d_one; d_mone].

(** ReadGmsDouble, gmsstrm.cpp 1011-1044. *)
Definition p_gdbl (l : list Z) : outcome (option (Z * list Z)) :=
  match l with
  | [] => Done None
  | b :: r =>
      if b <? 128 then
        if (1 <=? b) && (b <=? 9) then
          let t := match znth gdbl_table (b - 1) with Some t => t | None => d_zero end in
          if b =? 6 then
            match p_gint r with
            | Done (Some (n, r')) => Done (Some (fmul (fofZ n) t, r'))
            | Done None => Done None
            | UB => UB
            end
          else Done (Some (fmul d_one t, r))
        else Done (Some (d_zero, r))
      else
        let c := b - 128 in
        let z := Z.min c 8 in
        match ptake (Z.to_nat (8 - z)) r with
        | None => Done None
        | Some (w, r') => Done (Some (le_val (repeat 0 (Z.to_nat z) ++ w), r'))
        end
  end.

Lemma strip_zeros_spec : forall l c t, strip_zeros l = (c, t) ->
  0 <= c /\ l = repeat 0 (Z.to_nat c) ++ t /\ zlen l = c + zlen t.
Proof.
  induction l as [| b l IH]; intros c t; cbn [strip_zeros].
  - intros E. injection E as <- <-. cbn. repeat split; lia.
  - destruct (Z.eqb_spec b 0).
    + destruct (strip_zeros l) as [c' t'] eqn:ES. intros E. injection E as <- <-.
      destruct (IH _ _ eq_refl) as (I1 & I2 & I3). split; [lia|].
      rewrite zlen_cons. split; [|lia].
      replace (Z.to_nat (c' + 1)) with (S (Z.to_nat c')) by lia. cbn [repeat app]. congruence.
    + intros E. injection E as <- <-. cbn. repeat split; lia.
Qed.

Lemma gdbl_full : forall d c t rest, u64_ok d -> strip_zeros (le_bytes 8 d) = (c, t) ->
  p_gdbl (((128 + c) :: t) ++ rest) = Done (Some (d, rest)).
Proof.
  intros d c t rest U S. destruct (strip_zeros_spec _ _ _ S) as (C & E & L).
  assert (L8 : zlen (le_bytes 8 d) = 8) by (unfold zlen; rewrite le_bytes_length; reflexivity).
  pose proof (zlen_nonneg t).
  cbn [app p_gdbl]. destruct (Z.ltb_spec (128 + c) 128); [lia|].
  replace (128 + c - 128) with c by lia. replace (Z.min c 8) with c by lia.
  replace (Z.to_nat (8 - c)) with (length t) by (unfold zlen in *; lia).
  rewrite ptake_app. rewrite <- E, le_val_bytes. change (256 ^ Z.of_nat 8) with (2^64).
  unfold u64_ok in U. rewrite Z.mod_small by lia. reflexivity.
Qed.

(** ** Doubles: the round trip *)

Lemma to_of_bits : forall x, u64_ok x -> of_bits x <> S754_nan -> to_bits (of_bits x) = x.
Proof.
  intros x U N. unfold u64_ok in U. unfold of_bits in *. unfold d_sign, d_exp, d_mant in *.
  set (q := x / 2^52) in *. set (m := x mod 2^52) in *.
  assert (X : x = 2^52 * q + m /\ 0 <= m < 2^52) by (split; [apply Z.div_mod; lia|apply Z.mod_pos_bound; lia]).
  destruct X as (X & M). assert (Q : 0 <= q < 4096) by lia.
  assert (SG : (if 2^63 <=? x then 2^63 else 0) = 2^52 * (q - q mod 2048)).
  { destruct (Z.leb_spec (2^63) x); lia. }
  assert (EQ : 0 <= q mod 2048 < 2048) by lia.
  set (e := q mod 2048) in *.
  destruct (Z.eqb_spec e 0) as [E0|E0].
  - destruct m as [| p|p] eqn:EM; [| |lia].
    + cbn [to_bits]. rewrite SG. lia.
    + cbn [to_bits]. rewrite SG. destruct (Z.ltb_spec (Z.pos p) (2^52)); lia.
  - destruct (Z.eqb_spec e 2047) as [E1|E1].
    + destruct (Z.eqb_spec m 0); [|congruence]. cbn [to_bits]. rewrite SG. lia.
    + destruct (2^52 + m) as [| p|p] eqn:EM; [lia| |lia]. cbn [to_bits]. rewrite SG.
      destruct (Z.ltb_spec (Z.pos p) (2^52)); lia.
Qed.

Lemma SFeqb_finite : forall x s m e, SFeqb x (S754_finite s m e) = true -> x = S754_finite s m e.
Proof.
  intros [s'|s'| |s' m' e'] s m e; unfold SFeqb; cbn [SFcompare].
  - destruct s; discriminate.
  - destruct s'; discriminate.
  - discriminate.
  - destruct s', s; try discriminate; (destruct (Z.compare_spec e' e) as [->|H|H]; try discriminate);
      fold (Pos.compare m' m); (destruct (Pos.compare_spec m' m) as [->|H|H]; [reflexivity|discriminate|discriminate]).
Qed.

Lemma feqb_eq : forall x c s m e, u64_ok x -> of_bits c = S754_finite s m e -> u64_ok c ->
  feqb x c = true -> x = c.
Proof.
  intros x c s m e Ux Ec Uc H. unfold feqb in H. rewrite Ec in H. apply SFeqb_finite in H.
  rewrite <- (to_of_bits x Ux), <- (to_of_bits c Uc); [congruence| |]; congruence.
Qed.

(** Every double below 1E300 (all ordinary numbers, including infinities below it) that
    is not the negative zero. *)
Lemma gdbl_real_roundtrip : forall d rest, u64_ok d -> fltb d SV_UNDEF = true -> d <> 2^63 ->
  exists bs, enc_gdbl d = Done bs /\ p_gdbl (bs ++ rest) = Done (Some (d, rest)).
Proof.
  intros d rest U L NZ. unfold enc_gdbl, mapval. rewrite L.
  destruct (feqb d d_zero) eqn:E0.
  { eexists. split; [reflexivity|]. change (p_gdbl ([7] ++ rest)) with (Done (Some (0, rest))). do 2 f_equal. f_equal.
    unfold feqb in E0. assert (of_bits d = S754_zero (d_sign d)).
    { change (of_bits d_zero) with (S754_zero false) in E0. unfold of_bits in *.
      destruct (d_exp d =? 0).
      - unfold d_mant in *. assert (0 <= d mod 2^52) by (apply Z.mod_pos_bound; lia).
        destruct (d mod 2^52) as [|p|p]; [reflexivity| |lia]. destruct (d_sign d); discriminate.
      - destruct (d_exp d =? 2047).
        + destruct (d_mant d =? 0); [destruct (d_sign d); discriminate|discriminate].
        + destruct (2^52 + d_mant d) as [|p|p] eqn:EM; try discriminate; destruct (d_sign d); discriminate. }
    assert (B := to_of_bits d U). rewrite H in B. specialize (B ltac:(discriminate)). cbn [to_bits] in B.
    destruct (d_sign d); [congruence|]. exact B. }
  destruct (feqb d d_one) eqn:E1.
  { eexists. split; [reflexivity|]. change (p_gdbl ([8] ++ rest)) with (Done (Some (d_one, rest))). do 2 f_equal. f_equal. symmetry.
    eapply feqb_eq; [exact U|vm_compute; reflexivity|split; vm_compute; congruence|exact E1]. }
  destruct (feqb d d_mone) eqn:E2.
  { eexists. split; [reflexivity|]. change (p_gdbl ([9] ++ rest)) with (Done (Some (d_mone, rest))). do 2 f_equal. f_equal. symmetry.
    eapply feqb_eq; [exact U|vm_compute; reflexivity|split; vm_compute; congruence|exact E2]. }
  cbn [Z.eqb]. destruct (strip_zeros (le_bytes 8 d)) as [c t] eqn:S.
  eexists. split; [reflexivity|]. apply gdbl_full; assumption.
Qed.

(** The five special values. *)
Lemma gdbl_special_roundtrip : forall d rest, In d [SV_UNDEF; SV_NA; SV_PINF; SV_MINF; SV_EPS] ->
  exists bs, enc_gdbl d = Done bs /\ p_gdbl (bs ++ rest) = Done (Some (d, rest)).
Proof.
  intros d rest H. cbn [In] in H.
  destruct H as [<-|[<-|[<-|[<-|[<-|[]]]]]]; (eexists; split; [vm_compute; reflexivity|]; vm_compute; reflexivity).
Qed.
