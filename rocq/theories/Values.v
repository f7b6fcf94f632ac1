(** * Values: doubles, special values and acronyms

    A [double] is its 64-bit pattern, a [Z] in [0, 2^64).  Arithmetic and comparison
    go through the IEEE-754 functions of Coq's standard library
    (Coq.Floats.SpecFloat, binary64: precision 53, emax 1024). *)

From Coq Require Import Floats.SpecFloat.
From Verif Require Import Base Prim.

Definition prec64 : Z := 53.
Definition emax64 : Z := 1024.

(** gxfile.cpp 1188-1227 describes the layout: sign, 11 exponent bits, 52 mantissa bits. *)
Definition d_sign (u : Z) : bool := 2^63 <=? u.
Definition d_exp (u : Z) : Z := (u / 2^52) mod 2048.
Definition d_mant (u : Z) : Z := u mod 2^52.

(** The IEEE meaning of a pattern. *)
Definition of_bits (u : Z) : spec_float :=
  let s := d_sign u in
  if d_exp u =? 0 then
    match d_mant u with
    | Zpos m => S754_finite s m (-1074)
    | _ => S754_zero s
    end
  else if d_exp u =? 2047 then
    (if d_mant u =? 0 then S754_infinity s else S754_nan)
  else match 2^52 + d_mant u with
       | Zpos m => S754_finite s m (d_exp u - 1075)
       | _ => S754_nan
       end.

(** The pattern of an IEEE value (NaN: the canonical quiet NaN). *)
Definition to_bits (f : spec_float) : Z :=
  let sb (s : bool) := if s then 2^63 else 0 in
  match f with
  | S754_zero s => sb s
  | S754_infinity s => sb s + 2047 * 2^52
  | S754_nan => 2047 * 2^52 + 2^51
  | S754_finite s m e =>
      if Zpos m <? 2^52 then sb s + Zpos m
      else sb s + (e + 1075) * 2^52 + (Zpos m - 2^52)
  end.

Definition fmul (x y : Z) : Z := to_bits (SFmul prec64 emax64 (of_bits x) (of_bits y)).
Definition fdiv (x y : Z) : Z := to_bits (SFdiv prec64 emax64 (of_bits x) (of_bits y)).
Definition fadd (x y : Z) : Z := to_bits (SFadd prec64 emax64 (of_bits x) (of_bits y)).
Definition fsub (x y : Z) : Z := to_bits (SFsub prec64 emax64 (of_bits x) (of_bits y)).
Definition fleb (x y : Z) : bool := SFleb (of_bits x) (of_bits y).
Definition fltb (x y : Z) : bool := SFltb (of_bits x) (of_bits y).
Definition feqb (x y : Z) : bool := SFeqb (of_bits x) (of_bits y).

(** Conversion of an integer to [double] (exact below 2^53, correctly rounded above). *)
Definition fofZ (z : Z) : Z :=
  to_bits (match z with
           | Z0 => S754_zero false
           | Zpos p => binary_normalize prec64 emax64 z 0 false
           | Zneg p => binary_normalize prec64 emax64 z 0 true
           end).

(** [static_cast<int64_t>] of a double: truncation; [None] when not representable
    (undefined behaviour). *)
Definition f_trunc (x : Z) : option Z :=
  match of_bits x with
  | S754_zero _ => Some 0
  | S754_finite s m e =>
      let a := if 0 <=? e then Zpos m * 2^e else Zpos m / 2^(-e) in
      let v := if s then - a else a in
      if (-(2^63) <=? v) && (v <? 2^63) then Some v else None
  | _ => None
  end.

(** [static_cast<int>] of an [int64_t]: the low 32 bits. *)
Definition to_int32 (z : Z) : Z := signed 32 (z mod 2^32).

Definition d_zero : Z := 0.
Definition d_half : Z := 0x3FE0000000000000.
Definition d_one : Z := 0x3FF0000000000000.
Definition d_two : Z := 0x4000000000000000.
Definition d_mone : Z := 0xBFF0000000000000.

(** generated/gclgms.h 110-115: GMS_SV_UNDEF, NA, PINF, MINF, EPS, ACR. *)
Definition SV_UNDEF : Z := 0x7E37E43C8800759C. (* 1.0E300 *)
Definition SV_NA    : Z := 0x7E47E43C8800759C. (* 2.0E300 *)
Definition SV_PINF  : Z := 0x7E51EB2D66005835. (* 3.0E300 *)
Definition SV_MINF  : Z := 0x7E57E43C8800759C. (* 4.0E300 *)
Definition SV_EPS   : Z := 0x7E5DDD4BAA009303. (* 5.0E300 *)
Definition SV_ACR   : Z := 0x7E6DDD4BAA009303. (* 10.0E300 *)

(** utils.hpp 510-514 (round<int>). *)
Definition d_round (x : Z) : option Z :=
  match f_trunc (if fleb d_zero x then fadd x d_half else fsub x d_half) with
  | Some v => Some (to_int32 v)
  | None => None
  end.

(** ** Classification of a value for storage *)

(** gxfile.cpp 1196-1202, 1214-1227 (dblInfo). *)
Inductive dbl_class := DBL_NAN | DBL_NINF | DBL_PINF | DBL_FINITE.
Definition dblInfo (u : Z) : dbl_class :=
  if d_exp u =? 2047 then
    (if d_mant u =? 0 then (if d_sign u then DBL_NINF else DBL_PINF) else DBL_NAN)
  else DBL_FINITE.

(** gxfile.hpp, TgdxIntlValTyp: the value markers of the file format. *)
Definition vm_valund : Z := 0.
Definition vm_valna : Z := 1.
Definition vm_valpin : Z := 2.
Definition vm_valmin : Z := 3.
Definition vm_valeps : Z := 4.
Definition vm_zero : Z := 5.
Definition vm_one : Z := 6.
Definition vm_mone : Z := 7.
Definition vm_half : Z := 8.
Definition vm_two : Z := 9.
Definition vm_normal : Z := 10.
Definition vm_count : Z := 11.

(** A stored value: a marker below [vm_normal], or a double written in full. *)
Inductive sval :=
| SMark (m : Z)
| SNum (d : Z).

Fixpoint index_of (x : Z) (l : list Z) (i : Z) : option Z :=
  match l with
  | [] => None
  | y :: r => if x =? y then Some i else index_of x r (i + 1)
  end.

(** gxfile.cpp 1318-1353 (the value loop of DoWrite): [tab] is intlValueMapI64, the
    bit patterns of the ten markers. *)
Definition classify (tab : list Z) (x : Z) : sval :=
  match index_of x tab 0 with
  | Some i => SMark i
  | None =>
      if (x =? 0) || (x =? 2^63) then SMark vm_zero
      else match dblInfo x with
           | DBL_NINF => SMark vm_valmin
           | DBL_PINF => SMark vm_valpin
           | DBL_NAN => SMark vm_valna
           | DBL_FINITE => SNum x
           end
  end.

(** gxfile.cpp 1347-1349: the bytes of a stored value. *)
Definition enc_sval (bo : border) (v : sval) : list Z :=
  match v with
  | SMark m => enc_byte m
  | SNum d => enc_byte vm_normal ++ enc_dbl bo d
  end.

(** gxfile.cpp 1439-1452: reading a stored value.  [SMark m] with [m >= vm_count]
    stands for a marker byte out of range. *)
Definition p_sval (bo : border) : parser sval :=
  fun l => match l with
           | [] => None
           | b :: r => if b =? vm_normal
                       then match p_dbl bo r with
                            | Some (d, r') => Some (SNum d, r')
                            | None => None
                            end
                       else Some (SMark b, r)
           end.

Definition sval_ok (v : sval) : Prop :=
  match v with
  | SMark m => 0 <= m < vm_normal
  | SNum d => u64_ok d
  end.

(** gxfile.cpp 686-717 (gdxResetSpecialValues): the default table. *)
Definition default_tab : list Z :=
  [SV_UNDEF; SV_NA; SV_PINF; SV_MINF; SV_EPS; d_zero; d_one; d_mone; d_half; d_two].

(** Reading a marker through the reader's table (gxfile.cpp 1444-1452), before any
    acronym remapping. *)
Definition sval_value (rtab : list Z) (v : sval) : Z :=
  match v with
  | SNum d => d
  | SMark m => if vm_count <=? m then d_zero
               else match znth rtab m with Some x => x | None => d_zero end
  end.

(** ** Facts *)

Lemma p_sval_enc : forall bo v r, sval_ok v -> p_sval bo (enc_sval bo v ++ r) = Some (v, r).
Proof.
  intros bo [m|d] r H; cbn [sval_ok] in H.
  - unfold p_sval, enc_sval, enc_byte, vm_normal in *. cbn [app].
    rewrite Z.mod_small by lia. destruct (Z.eqb_spec m 10); [lia|reflexivity].
  - unfold p_sval, enc_sval, enc_byte. cbn [app]. change (vm_normal mod 256 =? vm_normal) with true.
    cbv iota. rewrite p_dbl_enc by assumption. reflexivity.
Qed.

Lemma index_of_bound : forall l x i j, index_of x l i = Some j -> i <= j < i + zlen l.
Proof.
  induction l as [| y l IH]; intros x i j; cbn [index_of]; [discriminate|].
  rewrite zlen_cons. pose proof (zlen_nonneg l).
  destruct (x =? y); intros E.
  - injection E as <-. lia.
  - apply IH in E. lia.
Qed.

Lemma index_of_znth : forall l x i j, index_of x l i = Some j -> znth l (j - i) = Some x.
Proof.
  induction l as [| y l IH]; intros x i j; cbn [index_of]; [discriminate|].
  destruct (Z.eqb_spec x y); intros E.
  - injection E as <-. subst. rewrite Z.sub_diag. reflexivity.
  - pose proof (index_of_bound _ _ _ _ E). apply IH in E.
    unfold znth in *. destruct (Z.ltb_spec (j - i) 0); [lia|].
    destruct (Z.ltb_spec (j - (i + 1)) 0); [lia|].
    replace (Z.to_nat (j - i)) with (S (Z.to_nat (j - (i + 1)))) by lia. exact E.
Qed.

Lemma index_of_None : forall l x i, index_of x l i = None <-> ~ In x l.
Proof.
  induction l as [| y l IH]; intros x i; cbn [index_of In].
  - split; auto.
  - destruct (Z.eqb_spec x y).
    + subst. split; [discriminate|]. intros H; exfalso; apply H; auto.
    + rewrite IH. split; intros H; [intros [E|E]; [congruence|auto]|auto].
Qed.

Lemma classify_ok : forall tab x, zlen tab = 10 -> u64_ok x -> sval_ok (classify tab x).
Proof.
  intros tab x L U. unfold classify.
  destruct (index_of x tab 0) as [j|] eqn:E.
  - apply index_of_bound in E. cbn. unfold vm_normal. lia.
  - destruct ((x =? 0) || (x =? 2^63)); [cbn; unfold vm_zero, vm_normal; lia|].
    destruct (dblInfo x); cbn; unfold vm_valmin, vm_valna, vm_valpin, vm_normal; try lia; exact U.
Qed.
