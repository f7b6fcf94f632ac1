(** * Prim: primitive values in the stream format

    src/gdlib/gmsstrm.cpp and gmsstrm.hpp: the writers and readers of bytes, words,
    integers, 64-bit integers, doubles and short strings.  [border] says,
    for words, integers and doubles, whether the values of a file are stored with the most
    significant byte first.  The code keeps instead whether the bytes of the file have to
    be reversed on the machine it runs on; PropOrder.v (C24_model_of_reading) shows that
    this comes to the same on every machine. *)

From Verif Require Import Base.

(** gmsstrm.hpp 268-269: the members order_word, order_integer, order_double (0 or 1:
    values have to be reversed), as seen on a little-endian machine. *)
Record border := mkBO { bo_w : bool; bo_i : bool; bo_d : bool }.
Definition native : border := mkBO false false false.
(** A file written on a big-endian machine. *)
Definition foreign : border := mkBO true true true.

(** gmsstrm.cpp 97-105 (reverseBytesMax8), gmsstrm.hpp 281-294. *)
Definition swp (b : bool) (l : list Z) : list Z := if b then rev l else l.

(** gmsstrm.hpp WriteByte / gmsstrm.cpp 256-338 (WriteX): one byte, truncated. *)
Definition enc_byte (b : Z) : list Z := [b mod 256].
(** WriteWord: two bytes. *)
Definition enc_word (bo : border) (w : Z) : list Z := swp (bo_w bo) (le_bytes 2 w).
(** WriteInteger: four bytes. *)
Definition enc_int (bo : border) (z : Z) : list Z := swp (bo_i bo) (le_bytes 4 z).
(** WriteInt64: eight bytes. *)
Definition enc_i64 (bo : border) (z : Z) : list Z := swp (bo_i bo) (le_bytes 8 z).
(** WriteDouble: the eight bytes of the pattern. *)
Definition enc_dbl (bo : border) (d : Z) : list Z := swp (bo_d bo) (le_bytes 8 d).

(** gmsstrm.cpp 241-254 (WriteString): a length byte, then the characters.  Only
    meaningful for strings of at most 255 bytes: for longer ones the C++ code writes
    [length+1] bytes from a 256-byte buffer, see [write_string] below. *)
Definition enc_str (s : str) : list Z := zlen s :: s.

(** gmsstrm.cpp 241-254 together with utils.cpp 253-265 (strConvCppToDelphi): for a
    string longer than 255 bytes the buffer receives an error text and then
    [length+1] bytes are written out of the 256-byte buffer, i.e. past its end. *)
Definition write_string (s : str) : outcome (list Z) :=
  if zlen s <=? 255 then Done (enc_str s) else UB.

(** gmsstrm.hpp 281-294 (ReadValueOrdered), gmsstrm.cpp 850-873 (ReadDouble, ReadInteger,
    ReadWord, ReadInt64 - the last one uses order_integer). *)
Definition p_byte : parser Z := fun l => match l with [] => None | b :: r => Some (b, r) end.
Definition p_word (bo : border) : parser Z :=
  pbind (ptake 2) (fun b => pret (le_val (swp (bo_w bo) b))).
Definition p_int (bo : border) : parser Z :=
  pbind (ptake 4) (fun b => pret (signed 32 (le_val (swp (bo_i bo) b)))).
Definition p_i64 (bo : border) : parser Z :=
  pbind (ptake 8) (fun b => pret (signed 64 (le_val (swp (bo_i bo) b)))).
Definition p_dbl (bo : border) : parser Z :=
  pbind (ptake 8) (fun b => pret (le_val (swp (bo_d bo) b))).

(** gmsstrm.cpp 347-357 (ReadString): the empty string when not even the length byte is
    there; when the text is cut short the missing characters stay NUL. *)
Definition p_str : parser str :=
  fun l => match l with
           | [] => Some ([], [])
           | n :: r => match ptake (Z.to_nat n) r with
                       | Some x => Some x
                       | None => Some (r ++ repeat 0 (Z.to_nat n - length r), [])
                       end
           end.
(** gmsstrm.cpp 359-370 (ReadSString) into a [char[256]], seen as a C string afterwards:
    cut at the first NUL.  At the end of the file the length stays indeterminate. *)
Fixpoint cstr (s : list Z) : str :=
  match s with
  | [] => []
  | c :: r => if c =? 0 then [] else c :: cstr r
  end.
Definition p_sstr : parser str :=
  fun l => match l with
           | [] => None
           | n :: r => match ptake (Z.to_nat n) r with
                       | Some (s, r') => Some (cstr s, r')
                       | None => None
                       end
           end.

Lemma p_byte_enc : forall b r, byte_ok b -> p_byte (enc_byte b ++ r) = Some (b, r).
Proof. intros b r H. unfold byte_ok in H. cbn. rewrite Z.mod_small by lia. reflexivity. Qed.

Lemma swp_swp : forall b l, swp b (swp b l) = l.
Proof. intros [|] l; cbn; [apply rev_involutive|reflexivity]. Qed.

Lemma swp_length : forall b l, length (swp b l) = length l.
Proof. intros [|] l; cbn; [apply rev_length|reflexivity]. Qed.

Lemma swp_ok : forall b l, bytes_ok l -> bytes_ok (swp b l).
Proof. intros [|] l H; cbn; [apply Forall_rev; exact H|exact H]. Qed.

Lemma ptake_swp : forall b n z r, ptake n (swp b (le_bytes n z) ++ r) = Some (swp b (le_bytes n z), r).
Proof.
  intros b n z r. rewrite <- (le_bytes_length n z) at 1. rewrite <- (swp_length b). apply ptake_app.
Qed.

Lemma p_word_enc : forall bo w r, 0 <= w < 65536 -> p_word bo (enc_word bo w ++ r) = Some (w, r).
Proof.
  intros bo w r H. unfold p_word, enc_word, pbind. rewrite ptake_swp. unfold pret.
  rewrite swp_swp, le_val_bytes. rewrite Z.mod_small by (simpl; lia). reflexivity.
Qed.

Lemma p_int_enc : forall bo z r, int_ok z -> p_int bo (enc_int bo z ++ r) = Some (z, r).
Proof.
  intros bo z r H. unfold p_int, enc_int, pbind. rewrite ptake_swp. unfold pret.
  rewrite swp_swp, le_val_bytes. change (256 ^ Z.of_nat 4) with (2^32).
  unfold int_ok, INT_MIN, INT_MAX in H. rewrite signed_mod by lia. reflexivity.
Qed.

Lemma p_i64_enc : forall bo z r, i64_ok z -> p_i64 bo (enc_i64 bo z ++ r) = Some (z, r).
Proof.
  intros bo z r H. unfold p_i64, enc_i64, pbind. rewrite ptake_swp. unfold pret.
  rewrite swp_swp, le_val_bytes. change (256 ^ Z.of_nat 8) with (2^64).
  unfold i64_ok in H. rewrite signed_mod by lia. reflexivity.
Qed.

Lemma p_dbl_enc : forall bo z r, u64_ok z -> p_dbl bo (enc_dbl bo z ++ r) = Some (z, r).
Proof.
  intros bo z r H. unfold p_dbl, enc_dbl, pbind. rewrite ptake_swp. unfold pret.
  rewrite swp_swp, le_val_bytes. change (256 ^ Z.of_nat 8) with (2^64).
  unfold u64_ok in H. rewrite Z.mod_small by lia. reflexivity.
Qed.

Lemma enc_word_ok : forall bo w, bytes_ok (enc_word bo w).
Proof. intros. apply swp_ok, le_bytes_ok. Qed.
Lemma enc_int_ok : forall bo w, bytes_ok (enc_int bo w).
Proof. intros. apply swp_ok, le_bytes_ok. Qed.
Lemma enc_i64_ok : forall bo w, bytes_ok (enc_i64 bo w).
Proof. intros. apply swp_ok, le_bytes_ok. Qed.
Lemma enc_dbl_ok : forall bo w, bytes_ok (enc_dbl bo w).
Proof. intros. apply swp_ok, le_bytes_ok. Qed.
Lemma enc_byte_ok : forall b, bytes_ok (enc_byte b).
Proof. intros. constructor; [unfold byte_ok; lia|constructor]. Qed.
Lemma enc_int_length : forall bo w, length (enc_int bo w) = 4%nat.
Proof. intros. unfold enc_int. rewrite swp_length. apply le_bytes_length. Qed.
Lemma enc_i64_length : forall bo w, length (enc_i64 bo w) = 8%nat.
Proof. intros. unfold enc_i64. rewrite swp_length. apply le_bytes_length. Qed.

Lemma p_str_enc : forall s r, p_str (enc_str s ++ r) = Some (s, r).
Proof.
  intros s r. unfold p_str, enc_str, zlen. cbn [app].
  rewrite Nat2Z.id, ptake_app. reflexivity.
Qed.

Lemma cstr_id : forall s, str_ok s -> cstr s = s.
Proof.
  induction s as [| c s IH]; intros H; [reflexivity|].
  inversion H; subst. unfold char_ok in H2. cbn [cstr].
  destruct (Z.eqb_spec c 0); [lia|]. rewrite IH by assumption. reflexivity.
Qed.

Lemma p_sstr_enc : forall s r, str_ok s -> p_sstr (enc_str s ++ r) = Some (s, r).
Proof.
  intros s r H. unfold p_sstr, enc_str, zlen. cbn [app].
  rewrite Nat2Z.id, ptake_app, cstr_id by assumption. reflexivity.
Qed.

Lemma enc_str_ok : forall s, str_ok s -> zlen s <= 255 -> bytes_ok (enc_str s).
Proof.
  intros s H L. constructor.
  - unfold byte_ok. pose proof (zlen_nonneg s). lia.
  - eapply Forall_impl; [| exact H]. unfold char_ok, byte_ok. intros; lia.
Qed.
