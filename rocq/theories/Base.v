(** * Base: bytes, machine integers, outcomes

    Shared vocabulary of the model.  Nothing here models a particular function of
    the library; the comments say which C++ notion each definition stands for. *)

From Coq Require Export ZArith List Bool Lia.
From Coq Require Export ZifyBool ZifyNat ZifyN.
Export ListNotations.
Global Open Scope Z_scope.
Global Open Scope list_scope.

Ltac Zify.zify_post_hook ::= Z.div_mod_to_equations.

(** A byte is a [Z]; [byte_ok] says that it is one of the 256 values. *)
Definition byte_ok (b : Z) : Prop := 0 <= b < 256.
Definition bytes_ok (l : list Z) : Prop := Forall byte_ok l.

(** C strings: sequences of non-NUL bytes. *)
Definition str := list Z.
Definition char_ok (c : Z) : Prop := 1 <= c < 256.
Definition str_ok (s : str) : Prop := Forall char_ok s.

(** The range of a C++ [int] (32 bit), of [int64_t] and of a [double]'s bit pattern. *)
Definition INT_MAX : Z := 2147483647.
Definition INT_MIN : Z := -2147483648.
Definition int_ok (z : Z) : Prop := INT_MIN <= z <= INT_MAX.
Definition int_okb (z : Z) : bool := (INT_MIN <=? z) && (z <=? INT_MAX).
Definition i64_ok (z : Z) : Prop := -(2^63) <= z < 2^63.
Definition u64_ok (z : Z) : Prop := 0 <= z < 2^64.

(** The outcome of running C++ code on the model: a value, or undefined behaviour
    (out-of-range access, null dereference, signed overflow, use of an
    indeterminate value). *)
Inductive outcome (A : Type) : Type :=
| Done (a : A)
| UB.
Arguments Done {A} a.
Arguments UB {A}.

Definition obind {A B} (x : outcome A) (f : A -> outcome B) : outcome B :=
  match x with Done a => f a | UB => UB end.

(** Little-endian bytes of an integer (two's complement for negative ones). *)
Fixpoint le_bytes (n : nat) (z : Z) : list Z :=
  match n with
  | O => []
  | S n' => z mod 256 :: le_bytes n' (z / 256)
  end.

(** The unsigned value of a little-endian byte sequence. *)
Fixpoint le_val (l : list Z) : Z :=
  match l with
  | [] => 0
  | b :: r => b + 256 * le_val r
  end.

(** Reinterpreting an unsigned value as signed: the conversion done by reading the
    bytes into an [int] or an [int64_t]. *)
Definition signed (bits : Z) (u : Z) : Z :=
  if u <? 2 ^ (bits - 1) then u else u - 2 ^ bits.

Lemma le_bytes_length : forall n z, length (le_bytes n z) = n.
Proof. induction n; intros; simpl; [reflexivity | rewrite IHn; reflexivity]. Qed.

Lemma le_bytes_ok : forall n z, bytes_ok (le_bytes n z).
Proof.
  induction n; intros; simpl; constructor; [| apply IHn].
  unfold byte_ok. lia.
Qed.

Lemma le_val_bytes : forall n z, le_val (le_bytes n z) = z mod 256 ^ Z.of_nat n.
Proof.
  induction n; intros z.
  - simpl. rewrite Z.mod_1_r. reflexivity.
  - cbn [le_bytes le_val]. rewrite IHn.
    rewrite Nat2Z.inj_succ, Z.pow_succ_r by lia.
    rewrite Z.rem_mul_r; [| lia | apply Z.pow_pos_nonneg; lia].
    reflexivity.
Qed.

Lemma le_val_bound : forall l, bytes_ok l -> 0 <= le_val l < 256 ^ Z.of_nat (length l).
Proof.
  induction l as [| b l IH]; intros H.
  - simpl. lia.
  - inversion H; subst. specialize (IH H3). unfold byte_ok in H2.
    cbn [le_val length]. rewrite Nat2Z.inj_succ, Z.pow_succ_r by lia. lia.
Qed.

Lemma le_bytes_val : forall l, bytes_ok l -> le_bytes (length l) (le_val l) = l.
Proof.
  induction l as [| b l IH]; intros H; [reflexivity|].
  inversion H; subst. unfold byte_ok in H2.
  cbn [le_bytes le_val length].
  replace ((b + 256 * le_val l) mod 256) with b.
  - replace ((b + 256 * le_val l) / 256) with (le_val l) by lia.
    rewrite IH by assumption. reflexivity.
  - rewrite Z.mul_comm, Z.mod_add by lia. rewrite Z.mod_small; lia.
Qed.

Lemma signed_mod : forall bits z, 0 < bits -> -(2^(bits-1)) <= z < 2^(bits-1) ->
  signed bits (z mod 2^bits) = z.
Proof.
  intros bits z Hb Hz. unfold signed.
  assert (E : 2^bits = 2 * 2^(bits-1)).
  { rewrite <- Z.pow_succ_r by lia. f_equal. lia. }
  assert (P : 0 < 2^(bits-1)) by (apply Z.pow_pos_nonneg; lia).
  rewrite E in *. clear E.
  destruct (Z.ltb_spec (z mod (2 * 2^(bits-1))) (2^(bits-1))) as [L|L].
  - destruct (Z.le_gt_cases 0 z).
    + apply Z.mod_small; lia.
    + exfalso. assert (z mod (2*2^(bits-1)) = z + 2*2^(bits-1)).
      { symmetry. apply Z.mod_unique with (q := -1); lia. }
      lia.
  - destruct (Z.le_gt_cases 0 z).
    + exfalso. rewrite Z.mod_small in L; lia.
    + assert (z mod (2*2^(bits-1)) = z + 2*2^(bits-1)).
      { symmetry. apply Z.mod_unique with (q := -1); lia. }
      lia.
Qed.

(** ** Parsers

    A parser consumes a prefix of the remaining logical content of the file.
    [None] stands for a read past the end of the data: in the C++ code the variable
    that should receive the value then has an indeterminate value. *)
Definition parser (A : Type) := list Z -> option (A * list Z).

Definition pret {A} (a : A) : parser A := fun l => Some (a, l).
Definition pbind {A B} (p : parser A) (f : A -> parser B) : parser B :=
  fun l => match p l with Some (a, r) => f a r | None => None end.
Definition pfail {A} : parser A := fun _ => None.

Declare Scope parse_scope.
Delimit Scope parse_scope with parse.
Notation "x <- p ;; q" := (pbind p (fun x => q))
  (at level 61, p at next level, right associativity) : parse_scope.

(** Exactly [n] bytes. *)
Fixpoint ptake (n : nat) : parser (list Z) :=
  match n with
  | O => pret []
  | S n' => fun l => match l with
                     | [] => None
                     | b :: r => match ptake n' r with
                                 | Some (x, r') => Some (b :: x, r')
                                 | None => None
                                 end
                     end
  end.

(** [n] items in sequence. *)
Fixpoint prepeat {A} (n : nat) (p : parser A) : parser (list A) :=
  match n with
  | O => pret []
  | S n' => pbind p (fun a => pbind (prepeat n' p) (fun r => pret (a :: r)))
  end.

Lemma ptake_app : forall x r, ptake (length x) (x ++ r) = Some (x, r).
Proof.
  induction x as [| a x IH]; intros r; [reflexivity|].
  cbn [length ptake app]. rewrite IH. reflexivity.
Qed.

Lemma ptake_le : forall n z r, ptake n (le_bytes n z ++ r) = Some (le_bytes n z, r).
Proof.
  intros. rewrite <- (le_bytes_length n z) at 1. apply ptake_app.
Qed.

Lemma prepeat_app : forall {A} (p : parser A) (e : A -> list Z) (xs : list A) r,
  (forall x r', In x xs -> p (e x ++ r') = Some (x, r')) ->
  prepeat (length xs) p (flat_map e xs ++ r) = Some (xs, r).
Proof.
  intros A p e xs. induction xs as [| x xs IH]; intros r H; [reflexivity|].
  cbn [length prepeat flat_map]. unfold pbind. rewrite <- app_assoc.
  rewrite H by (left; reflexivity).
  rewrite IH; [reflexivity|]. intros; apply H; right; assumption.
Qed.

(** ** Small list facts used everywhere *)

(** The [n]-th element (0-based [Z] index), [None] out of range: the model of
    [std::vector::operator[]] with undefined behaviour made visible. *)
Definition znth {A} (l : list A) (i : Z) : option A :=
  if i <? 0 then None else nth_error l (Z.to_nat i).

Definition zlen {A} (l : list A) : Z := Z.of_nat (length l).

(** Replacing the [n]-th element. *)
Fixpoint set_nth {A} (n : nat) (a : A) (l : list A) : list A :=
  match l, n with
  | [], _ => []
  | _ :: r, O => a :: r
  | x :: r, S n' => x :: set_nth n' a r
  end.

Definition zset {A} (i : Z) (a : A) (l : list A) : list A :=
  if i <? 0 then l else set_nth (Z.to_nat i) a l.

Lemma set_nth_length : forall {A} n (a : A) l, length (set_nth n a l) = length l.
Proof. intros A n a l. revert n. induction l; destruct n; simpl; auto. Qed.

Lemma nth_error_set_nth_eq : forall {A} n (a : A) l, (n < length l)%nat ->
  nth_error (set_nth n a l) n = Some a.
Proof.
  intros A n a l. revert n. induction l; destruct n; simpl; intros; try lia; auto.
  apply IHl. lia.
Qed.

Lemma nth_error_set_nth_neq : forall {A} n m (a : A) l, n <> m ->
  nth_error (set_nth n a l) m = nth_error l m.
Proof.
  intros A n m a l. revert n m. induction l; destruct n, m; simpl; intros; try lia; auto.
Qed.

Lemma Forall2_length : forall {A B} (P : A -> B -> Prop) l m, Forall2 P l m -> length l = length m.
Proof. intros A B P l m H. induction H; cbn; congruence. Qed.

Lemma zlen_nonneg : forall {A} (l : list A), 0 <= zlen l.
Proof. intros; unfold zlen; lia. Qed.

Lemma zlen_app : forall {A} (l m : list A), zlen (l ++ m) = zlen l + zlen m.
Proof. intros; unfold zlen; rewrite app_length; lia. Qed.

Lemma zlen_cons : forall {A} (a : A) l, zlen (a :: l) = 1 + zlen l.
Proof. intros; unfold zlen; cbn [length]; lia. Qed.

Lemma zlen_repeat : forall {A} (a : A) n, zlen (repeat a n) = Z.of_nat n.
Proof. intros; unfold zlen; rewrite repeat_length; reflexivity. Qed.

Lemma zlen_nil : forall {A}, zlen (@nil A) = 0.
Proof. reflexivity. Qed.

Lemma znth_Some : forall {A} (l : list A) i a, znth l i = Some a -> 0 <= i < zlen l.
Proof.
  intros A l i a. unfold znth, zlen. destruct (Z.ltb_spec i 0); [discriminate|].
  intros E. assert (Z.to_nat i < length l)%nat.
  { apply nth_error_Some. rewrite E. discriminate. }
  lia.
Qed.

Lemma znth_exists : forall {A} (l : list A) i, 0 <= i < zlen l -> exists a, znth l i = Some a.
Proof.
  intros A l i H. unfold znth, zlen in *. destruct (Z.ltb_spec i 0); [lia|].
  destruct (nth_error l (Z.to_nat i)) eqn:E; [eauto|].
  apply nth_error_None in E. lia.
Qed.

Lemma znth_None : forall {A} (l : list A) i, i < 0 \/ zlen l <= i -> znth l i = None.
Proof.
  intros A l i H. unfold znth, zlen in *. destruct (Z.ltb_spec i 0); [reflexivity|].
  apply nth_error_None. lia.
Qed.

Lemma znth_app_l : forall {A} (l m : list A) i, i < zlen l -> znth (l ++ m) i = znth l i.
Proof.
  intros A l m i H. unfold znth, zlen in *. destruct (Z.ltb_spec i 0); [reflexivity|].
  apply nth_error_app1. lia.
Qed.

Lemma znth_app_r : forall {A} (l m : list A) i, zlen l <= i ->
  znth (l ++ m) i = znth m (i - zlen l).
Proof.
  intros A l m i H. unfold znth, zlen in *.
  destruct (Z.ltb_spec i 0); [lia|].
  destruct (Z.ltb_spec (i - Z.of_nat (length l)) 0); [lia|].
  rewrite nth_error_app2 by lia. f_equal. lia.
Qed.

Lemma zset_length : forall {A} i (a : A) l, zlen (zset i a l) = zlen l.
Proof.
  intros. unfold zset, zlen. destruct (i <? 0); [reflexivity|]. rewrite set_nth_length. reflexivity.
Qed.

Lemma znth_zset_eq : forall {A} i (a : A) l, 0 <= i < zlen l -> znth (zset i a l) i = Some a.
Proof.
  intros A i a l H. unfold znth, zset, zlen in *. destruct (Z.ltb_spec i 0); [lia|].
  apply nth_error_set_nth_eq. lia.
Qed.

Lemma znth_zset_neq : forall {A} i j (a : A) l, i <> j -> znth (zset i a l) j = znth l j.
Proof.
  intros A i j a l H. unfold znth, zset.
  destruct (Z.ltb_spec j 0); [reflexivity|].
  destruct (Z.ltb_spec i 0); [reflexivity|].
  apply nth_error_set_nth_neq. lia.
Qed.
