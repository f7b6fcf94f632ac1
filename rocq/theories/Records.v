(** * Records: the delta coding of index vectors (DoWrite / DoRead)

    src/gxfile.cpp 1170-1185 (InitDoWrite), 1234-1380 (DoWrite), 1382-1466 (DoRead).
    This file models the part of these functions that turns index vectors into bytes
    and back; the value part is in Values.v, the bookkeeping in the API machine. *)

From Verif Require Import Base Prim Values.

(** gxfile.cpp: INDEX_INITIAL. *)
Definition INDEX_INITIAL : Z := -256.

(** gxfile.cpp 353-359 (GetIntegerSize). *)
Inductive esize := sz_byte | sz_word | sz_integer.
Definition int_size (n : Z) : esize :=
  if n <=? 0 then sz_integer
  else if n <=? 255 then sz_byte
  else if n <=? 65535 then sz_word
  else sz_integer.

(** gxfile.cpp 1181 and 992: the size used for a dimension with the given bounds
    (the difference is taken in 64 bits, so it cannot overflow). *)
Definition dim_size (mm : Z * Z) : esize := int_size (snd mm - fst mm + 1).

(** gxfile.cpp 1288-1302: one index written relative to the dimension's minimum. *)
Definition enc_elem (bo : border) (sz : esize) (v : Z) : list Z :=
  match sz with
  | sz_integer => enc_int bo v
  | sz_word => enc_word bo v
  | sz_byte => enc_byte v
  end.

(** gxfile.cpp 1419-1430: and read back (before adding the minimum). *)
Definition p_elem (bo : border) (sz : esize) : parser Z :=
  match sz with
  | sz_integer => p_int bo
  | sz_word => p_word bo
  | sz_byte => p_byte
  end.

(** What writing an index vector can lead to. *)
Inductive wkeys :=
| WDup                                   (* ERR_DATADUPLICATE *)
| WUnsorted                              (* ERR_RAWNOTSORTED *)
| WBytes (bs : list Z) (last : list Z).  (* bytes to append, new LastElem *)

(** gxfile.cpp 1262-1270: first dimension whose index differs from the previous
    record, 0-based, with the difference.  [UB] when the subtraction overflows. *)
Fixpoint first_delta (keys last : list Z) (d : nat) : outcome (option (nat * Z)) :=
  match keys, last with
  | k :: ks, l :: ls =>
      let delta := k - l in
      if int_okb delta
      then if delta =? 0 then first_delta ks ls (S d) else Done (Some (d, delta))
      else UB
  | _, _ => Done None
  end.

(** gxfile.cpp 1286-1304: the indices from the first changed dimension on. *)
Fixpoint enc_elems (bo : border) (mms : list (Z * Z)) (keys : list Z) : outcome (list Z) :=
  match mms, keys with
  | mm :: mms', k :: ks =>
      let v := k - fst mm in
      if int_okb v
      then match enc_elems bo mms' ks with
           | Done r => Done (enc_elem bo (dim_size mm) v ++ r)
           | UB => UB
           end
      else UB
  | _, _ => Done []
  end.

(** gxfile.cpp 1262-1306.  [dim] is FCurrentDim, [count] DataCount, [mms] the pairs
    (MinElem, MaxElem).  DeltaForWrite is 255 - dim - 1 (gxfile.cpp 726-789). *)
Definition write_keys (bo : border) (dim : nat) (mms : list (Z * Z)) (last : list Z) (count : Z)
    (keys : list Z) : outcome wkeys :=
  match first_delta keys last 0 with
  | UB => UB
  | Done None =>
      if (0 <? Z.of_nat dim) && (1 <=? count) then Done WDup
      else Done (WBytes (enc_byte 1) last)
  | Done (Some (d, delta)) =>
      if delta <? 0 then Done WUnsorted
      else if Nat.eqb (S d) dim && (delta <=? 255 - Z.of_nat dim - 1)
      then Done (WBytes (enc_byte (Z.of_nat dim + delta)) keys)
      else match enc_elems bo (skipn d mms) (skipn d keys) with
           | Done bs => Done (WBytes (enc_byte (Z.of_nat (S d)) ++ bs) keys)
           | UB => UB
           end
  end.

(** gxfile.cpp 1419-1431: reading the indices from a dimension on. *)
Fixpoint p_elems (bo : border) (mms : list (Z * Z)) : parser (list Z) :=
  match mms with
  | [] => pret []
  | mm :: mms' => pbind (p_elem bo (dim_size mm)) (fun v =>
                  pbind (p_elems bo mms') (fun r => pret (v + fst mm :: r)))
  end.

(** gxfile.cpp 1403-1431: the index part of DoRead.  [delta] is DeltaForRead: the
    dimension for files of version 7, MaxDimV148 = 10 for older ones.  [REnd]: the
    end-of-data byte 255.  Otherwise (AFDim, LastElem).  A first byte 0 violates an
    assertion and then indexes before the arrays: [UB].  In the relative branch the sum
    is an [int] addition. *)
Inductive rkeys :=
| REnd (rest : list Z)
| RKeys (afdim : Z) (last : list Z) (rest : list Z).

Fixpoint add_last (l : list Z) (x : Z) : outcome (list Z) :=
  match l with
  | [] => Done []
  | [a] => if int_okb (a + x) then Done [a + x] else UB
  | a :: r => match add_last r x with Done r' => Done (a :: r') | UB => UB end
  end.

Definition read_keys (bo : border) (delta : Z) (dim : nat) (mms : list (Z * Z)) (last : list Z)
    (l : list Z) : outcome rkeys :=
  match l with
  | [] => UB
  | b :: r =>
      if b >? delta then
        if b =? 255 then Done (REnd r)
        else match add_last last (b - delta) with
             | Done last' => Done (RKeys (Z.of_nat dim) last' r)
             | UB => UB
             end
      else if b <? 1 then UB
      else match p_elems bo (skipn (Z.to_nat (b - 1)) mms) r with
           | Some (ks, r') => Done (RKeys b (firstn (Z.to_nat (b - 1)) last ++ ks) r')
           | None => UB
           end
  end.

(** ** Order on index vectors *)

(** Lexicographic order, the order in which records are stored. *)
Fixpoint lex_lt (a b : list Z) : Prop :=
  match a, b with
  | x :: a', y :: b' => x < y \/ (x = y /\ lex_lt a' b')
  | _, _ => False
  end.

Fixpoint lex_ltb (a b : list Z) : bool :=
  match a, b with
  | x :: a', y :: b' => (x <? y) || ((x =? y) && lex_ltb a' b')
  | _, _ => false
  end.

Lemma lex_ltb_spec : forall a b, lex_ltb a b = true <-> lex_lt a b.
Proof.
  induction a as [| x a IH]; intros [| y b]; cbn [lex_ltb lex_lt]; try (split; [discriminate|tauto]).
  rewrite orb_true_iff, andb_true_iff, Z.ltb_lt, Z.eqb_eq, IH. tauto.
Qed.

Lemma lex_lt_trans : forall a b c, lex_lt a b -> lex_lt b c -> lex_lt a c.
Proof.
  induction a as [| x a IH]; intros [| y b] [| z c]; cbn [lex_lt]; try tauto.
  intros [H1|[-> H1]] [H2|[-> H2]]; try (left; lia); right; split; auto; eapply IH; eauto.
Qed.

Lemma lex_lt_irrefl : forall a, ~ lex_lt a a.
Proof.
  induction a as [| x a IH]; cbn [lex_lt]; [tauto|]. intros [H|[_ H]]; [lia|auto].
Qed.

(** Position (0-based) of the first difference. *)
Fixpoint first_diff (a b : list Z) : option nat :=
  match a, b with
  | x :: a', y :: b' => if x =? y then option_map S (first_diff a' b') else Some O
  | _, _ => None
  end.

(** ** Round trip *)

Definition in_bounds (mm : Z * Z) (k : Z) : Prop := fst mm <= k <= snd mm.

(** Bounds a data block can carry: ints, and the minimum is not negative. *)
Definition bounds_ok (mms : list (Z * Z)) : Prop :=
  Forall (fun mm => 0 <= fst mm <= INT_MAX /\ 0 <= snd mm <= INT_MAX) mms.

Definition keys_ok (mms : list (Z * Z)) (keys : list Z) : Prop :=
  Forall2 in_bounds mms keys /\ Forall (fun k => 0 <= k <= INT_MAX - 256) keys.

Lemma p_elem_enc : forall bo mm k r, in_bounds mm k -> 0 <= fst mm -> snd mm <= INT_MAX ->
  p_elem bo (dim_size mm) (enc_elem bo (dim_size mm) (k - fst mm) ++ r) = Some (k - fst mm, r).
Proof.
  intros bo [mn mx] k r [H1 H2] H3 H4; cbn [fst snd] in *.
  unfold INT_MAX in *.
  unfold dim_size, int_size; cbn [fst snd].
  destruct (Z.leb_spec (mx - mn + 1) 0); [lia|].
  destruct (Z.leb_spec (mx - mn + 1) 255).
  { cbn [p_elem enc_elem]. apply p_byte_enc. unfold byte_ok. lia. }
  destruct (Z.leb_spec (mx - mn + 1) 65535).
  { cbn [p_elem enc_elem]. apply p_word_enc. lia. }
  cbn [p_elem enc_elem]. apply p_int_enc. unfold int_ok, INT_MIN, INT_MAX. lia.
Qed.

Lemma enc_elem_ok : forall bo sz v, bytes_ok (enc_elem bo sz v).
Proof. intros bo [| |] v; cbn; [apply enc_byte_ok|apply enc_word_ok|apply enc_int_ok]. Qed.

Lemma elems_roundtrip : forall bo mms keys, bounds_ok mms -> Forall2 in_bounds mms keys ->
  exists bs, enc_elems bo mms keys = Done bs /\ bytes_ok bs /\
    forall r, p_elems bo mms (bs ++ r) = Some (keys, r).
Proof.
  intros bo mms keys B F. induction F as [| mm k mms keys Hk F IH].
  - exists []. split; [reflexivity|]. split; [constructor|reflexivity].
  - inversion B as [| ? ? [B1 B2] B3]; subst. destruct (IH B3) as (bs & E1 & E0 & E2).
    cbn [enc_elems]. rewrite E1.
    assert (I : int_okb (k - fst mm) = true).
    { unfold int_okb, INT_MIN, INT_MAX in *. destruct Hk. lia. }
    rewrite I. eexists. split; [reflexivity|].
    split; [apply Forall_app; split; [apply enc_elem_ok|exact E0]|].
    intros r. cbn [p_elems]. unfold pbind. rewrite <- app_assoc.
    rewrite p_elem_enc by (assumption || lia). rewrite E2. unfold pret.
    replace (k - fst mm + fst mm) with k by lia. reflexivity.
Qed.

Lemma first_delta_spec : forall keys last d, length keys = length last ->
  (forall i k l, nth_error keys i = Some k -> nth_error last i = Some l -> int_okb (k - l) = true) ->
  first_delta keys last d =
    match first_diff keys last with
    | None => Done None
    | Some i => Done (Some ((d + i)%nat, nth i keys 0 - nth i last 0))
    end.
Proof.
  induction keys as [| k keys IH]; intros [| l last] d L H; try discriminate; [reflexivity|].
  cbn [first_delta first_diff].
  rewrite (H O k l eq_refl eq_refl).
  destruct (Z.eqb_spec k l) as [->|N].
  - rewrite Z.sub_diag. cbn [Z.eqb].
    injection L as L. rewrite IH.
    + destruct (first_diff keys last); cbn [option_map]; [|reflexivity].
      cbn [nth]. rewrite Nat.add_succ_comm. reflexivity.
    + assumption.
    + intros i a b Ha Hb. apply (H (S i)); assumption.
  - destruct (Z.eqb_spec (k - l) 0); [lia|]. cbn [nth].
    replace (d + 0)%nat with d by lia. reflexivity.
Qed.

Lemma first_delta_done : forall keys last d r, length keys = length last ->
  first_delta keys last d = Done r ->
  r = match first_diff keys last with
      | None => None
      | Some i => Some ((d + i)%nat, nth i keys 0 - nth i last 0)
      end.
Proof.
  induction keys as [| k keys IH]; intros [| l last] d r L; try discriminate.
  - cbn. intros E. injection E as <-. reflexivity.
  - cbn [first_delta first_diff]. destruct (int_okb (k - l)); [|discriminate].
    injection L as L. destruct (Z.eqb_spec k l) as [->|N].
    + rewrite Z.sub_diag. cbn [Z.eqb]. intros E. apply IH in E; [|assumption]. subst r.
      destruct (first_diff keys last); cbn [option_map]; [|reflexivity].
      cbn [nth]. rewrite Nat.add_succ_comm. reflexivity.
    + destruct (Z.eqb_spec (k - l) 0); [lia|]. intros E. injection E as <-. cbn [nth].
      replace (d + 0)%nat with d by lia. reflexivity.
Qed.

Lemma first_diff_lt : forall keys last i, first_diff keys last = Some i ->
  (i < length keys)%nat /\ (i < length last)%nat /\ firstn i keys = firstn i last /\
  nth i keys 0 <> nth i last 0.
Proof.
  induction keys as [| k keys IH]; intros [| l last] i; cbn [first_diff]; try discriminate.
  destruct (Z.eqb_spec k l) as [->|N].
  - destruct (first_diff keys last) eqn:E; cbn [option_map]; [|discriminate].
    intros X; injection X as <-. destruct (IH _ _ E) as (A & B & C & D).
    cbn [length firstn nth]. split; [lia|]. split; [lia|]. split; [f_equal; assumption | assumption].
  - intros X; injection X as <-. cbn. split; [lia|]. split; [lia|]. split; [reflexivity|assumption].
Qed.

Lemma first_diff_None : forall keys last, length keys = length last ->
  first_diff keys last = None -> keys = last.
Proof.
  induction keys as [| k keys IH]; intros [| l last] L; cbn [first_diff]; try discriminate; auto.
  destruct (Z.eqb_spec k l) as [->|N]; [|discriminate].
  destruct (first_diff keys last) eqn:E; cbn [option_map]; [discriminate|].
  intros _. injection L as L. f_equal. apply IH; assumption.
Qed.

Lemma first_diff_refl : forall l, first_diff l l = None.
Proof. induction l; cbn; [reflexivity|]. rewrite Z.eqb_refl, IHl. reflexivity. Qed.

Lemma lex_lt_first_diff : forall last keys, length keys = length last -> lex_lt last keys ->
  exists i, first_diff keys last = Some i /\ nth i last 0 < nth i keys 0.
Proof.
  induction last as [| l last IH]; intros [| k keys] L; cbn [lex_lt]; try tauto.
  injection L as L. cbn [first_diff].
  intros [H|[-> H]].
  - destruct (Z.eqb_spec k l); [lia|]. exists O. split; [reflexivity|]. cbn. lia.
  - rewrite Z.eqb_refl. destruct (IH keys L H) as (i & E & Hi). rewrite E.
    exists (S i). split; [reflexivity|]. cbn. assumption.
Qed.

Lemma first_diff_lex : forall last keys i, length keys = length last ->
  first_diff keys last = Some i -> nth i last 0 < nth i keys 0 -> lex_lt last keys.
Proof.
  induction last as [| l last IH]; intros [| k keys] i L; cbn [first_diff]; try discriminate.
  injection L as L. cbn [lex_lt].
  destruct (Z.eqb_spec k l) as [->|N].
  - destruct (first_diff keys last) eqn:E; cbn [option_map]; [|discriminate].
    intros X; injection X as <-. cbn [nth]. intros H. right. split; [reflexivity|]. eapply IH; eauto.
  - intros X; injection X as <-. cbn [nth]. auto.
Qed.

Lemma add_last_app : forall p a x, int_okb (a + x) = true ->
  add_last (p ++ [a]) x = Done (p ++ [a + x]).
Proof.
  induction p as [| b p IH]; intros a x H; cbn [app].
  - cbn. rewrite H. reflexivity.
  - assert (X : forall l, l <> [] -> add_last (b :: l) x =
              match add_last l x with Done r' => Done (b :: r') | UB => UB end)
      by (intros [| z l] Hl; [congruence|reflexivity]).
    rewrite X by (destruct p; discriminate). rewrite IH by assumption. reflexivity.
Qed.

Lemma skipn_Forall : forall {A} (P : A -> Prop) n l, Forall P l -> Forall P (skipn n l).
Proof.
  intros A P n. induction n; intros l H; [assumption|].
  destruct l; [assumption|]. inversion H; subst. cbn. auto.
Qed.

Lemma skipn_Forall2 : forall {A B} (P : A -> B -> Prop) n l m, Forall2 P l m ->
  Forall2 P (skipn n l) (skipn n m).
Proof.
  intros A B P n. induction n; intros l m H; [assumption|].
  inversion H; subst; cbn; [constructor|]. auto.
Qed.

Lemma firstn_skipn_nth_last : forall (l : list Z) i, length l = S i -> l = firstn i l ++ [nth i l 0].
Proof.
  intros l i. revert l. induction i; intros l L.
  - destruct l as [| a [| b l]]; try discriminate. reflexivity.
  - destruct l as [| a l]; [discriminate|]. injection L as L. cbn. f_equal. auto.
Qed.

(** The heart of the matter: keys that were written after [last] are read back.
    [rlast] is what the reader holds; it may differ from the writer's [last] only
    for the first record, where the general form is used from the first dimension on. *)
Lemma write_read_done : forall bo dim mms last rlast count keys bs last',
  (1 <= dim <= 20)%nat -> length mms = dim -> length last = dim -> length rlast = dim ->
  bounds_ok mms -> Forall2 in_bounds mms keys ->
  write_keys bo dim mms last count keys = Done (WBytes bs last') ->
  (rlast = last /\ 1 <= count) \/ Forall (fun l => l = INDEX_INITIAL) last ->
  last' = keys /\ lex_lt last keys /\ bs <> [] /\ bytes_ok bs /\
  exists i, first_diff keys last = Some i /\
    forall r, read_keys bo (Z.of_nat dim) dim mms rlast (bs ++ r) = Done (RKeys (Z.of_nat (S i)) keys r).
Proof.
  intros bo dim mms last rlast count keys bs last' Hd Lm Ll Lr B K1 W R.
  assert (Lk : length keys = dim). { apply Forall2_length in K1. congruence. }
  assert (LL : length keys = length last) by congruence.
  assert (K2 : Forall (fun k => 0 <= k <= INT_MAX) keys).
  { clear - B K1. induction K1; constructor; inversion B; subst; [|auto]. unfold in_bounds in H. lia. }
  unfold write_keys in W.
  destruct (first_delta keys last 0) as [fd|] eqn:FD; [|discriminate].
  apply first_delta_done in FD; [|assumption]. subst fd.
  destruct (first_diff keys last) as [i|] eqn:E.
  2:{ exfalso. apply first_diff_None in E; [|assumption]. subst last.
      destruct R as [[_ R]|R].
      - destruct (Z.ltb_spec 0 (Z.of_nat dim)); [|lia]. destruct (Z.leb_spec 1 count); [|lia].
        cbn [andb] in W. discriminate.
      - destruct keys as [| k keys]; [cbn in Lk; lia|]. inversion R; subst. inversion K2; subst.
        unfold INDEX_INITIAL in *. lia. }
  cbn [Nat.add] in W.
  destruct (first_diff_lt _ _ _ E) as (I1 & I2 & I3 & I4).
  destruct (Z.ltb_spec (nth i keys 0 - nth i last 0) 0); [discriminate|].
  assert (LT : lex_lt last keys) by (eapply first_diff_lex; [exact LL|exact E|lia]).
  assert (Hk : 0 <= nth i keys 0 <= INT_MAX).
  { rewrite Forall_forall in K2. apply K2. apply nth_In. assumption. }
  destruct (Nat.eqb (S i) dim && (nth i keys 0 - nth i last 0 <=? 255 - Z.of_nat dim - 1)) eqn:C.
  - (* relative form *)
    injection W as <- <-. split; [reflexivity|]. split; [exact LT|]. split; [discriminate|].
    split; [apply enc_byte_ok|]. exists i. split; [reflexivity|].
    apply andb_true_iff in C. destruct C as [C1 C2]. apply Nat.eqb_eq in C1. apply Z.leb_le in C2.
    assert (rlast = last).
    { destruct R as [[R _]|R]; [assumption|]. exfalso.
      rewrite Forall_forall in R. specialize (R (nth i last 0) (nth_In _ _ I2)).
      unfold INDEX_INITIAL in R. lia. }
    subst rlast.
    intros r. unfold enc_byte. cbn [app read_keys].
    rewrite Z.mod_small by lia.
    destruct (Z.gtb_spec (Z.of_nat dim + (nth i keys 0 - nth i last 0)) (Z.of_nat dim)); [|lia].
    destruct (Z.eqb_spec (Z.of_nat dim + (nth i keys 0 - nth i last 0)) 255); [lia|].
    assert (last = firstn i last ++ [nth i last 0]) as E1.
    { apply firstn_skipn_nth_last. congruence. }
    assert (keys = firstn i keys ++ [nth i keys 0]) as E2.
    { apply firstn_skipn_nth_last. congruence. }
    rewrite E1 at 1. rewrite add_last_app.
    + replace (nth i last 0 + (Z.of_nat dim + (nth i keys 0 - nth i last 0) - Z.of_nat dim))
        with (nth i keys 0) by lia.
      rewrite <- I3, <- E2, <- C1. reflexivity.
    + unfold int_okb, INT_MIN, INT_MAX in *. lia.
  - (* general form *)
    destruct (elems_roundtrip bo (skipn i mms) (skipn i keys)) as (es & E1 & E0 & E2).
    { apply skipn_Forall. assumption. }
    { apply skipn_Forall2. assumption. }
    rewrite E1 in W. injection W as <- <-. split; [reflexivity|]. split; [exact LT|]. split; [discriminate|].
    split; [apply Forall_cons; [unfold byte_ok; lia|exact E0]|].
    exists i. split; [reflexivity|].
    intros r. change (Z.pos (Pos.of_succ_nat i)) with (Z.of_nat (S i)). cbn [app read_keys].
    rewrite Z.mod_small by lia.
    destruct (Z.gtb_spec (Z.of_nat (S i)) (Z.of_nat dim)); [lia|].
    destruct (Z.ltb_spec (Z.of_nat (S i)) 1); [lia|].
    replace (Z.to_nat (Z.of_nat (S i) - 1)) with i by lia.
    rewrite E2.
    assert (X : firstn i rlast = firstn i keys).
    { destruct R as [[-> _]|R]; [symmetry; assumption|].
      destruct i as [| i']; [reflexivity|]. exfalso.
      (* the first key would have to be INDEX_INITIAL *)
      destruct keys as [| k0 keys]; [cbn in I1; lia|]. destruct last as [| l0 last]; [cbn in I2; lia|].
      cbn [firstn] in I3. injection I3 as I3 _. inversion R; subst. inversion K2; subst.
      unfold INDEX_INITIAL in *. lia. }
    rewrite X, firstn_skipn. reflexivity.
Qed.

(** The end-of-data byte is never produced for a record. *)
Lemma read_end : forall bo delta dim mms last r, delta <= 20 ->
  read_keys bo delta dim mms last (255 :: r) = Done (REnd r).
Proof.
  intros. cbn [read_keys]. destruct (Z.gtb_spec 255 delta); [|lia]. reflexivity.
Qed.

(** Scalars: one byte 1, read back as dimension 0. *)
Lemma write_read_scalar : forall bo count r,
  write_keys bo 0 [] [] count [] = Done (WBytes [1] []) /\
  read_keys bo 0 0 [] [] ([1] ++ r) = Done (RKeys 0 [] r).
Proof. intros; split; reflexivity. Qed.

(** Acceptance is exactly "larger than the previous one". *)
Lemma write_keys_accepts : forall bo dim mms last count keys,
  (1 <= dim)%nat -> length mms = dim -> length last = dim -> length keys = dim ->
  Forall (fun l => -256 <= l <= INT_MAX) last ->
  Forall (fun k => 0 <= k <= INT_MAX - 256) keys ->
  bounds_ok mms ->
  1 <= count \/ Forall (fun l => l = INDEX_INITIAL) last ->
  match write_keys bo dim mms last count keys with
  | Done (WBytes _ last') => lex_lt last keys /\ last' = keys
  | Done WDup => keys = last
  | Done WUnsorted => lex_lt keys last
  | UB => False
  end.
Proof.
  intros bo dim mms last count keys Hd Lm Ll Lk HL HK B C.
  unfold write_keys. rewrite first_delta_spec; [| congruence |].
  2:{ intros j k l Hk Hl. apply nth_error_In in Hk. apply nth_error_In in Hl.
      rewrite Forall_forall in HK, HL. specialize (HK _ Hk). specialize (HL _ Hl).
      unfold int_okb, INT_MIN, INT_MAX in *. lia. }
  destruct (first_diff keys last) as [i|] eqn:E.
  - destruct (first_diff_lt _ _ _ E) as (I1 & I2 & I3 & I4).
    destruct (Z.ltb_spec (nth i keys 0 - nth i last 0) 0).
    + assert (X : exists i', first_diff last keys = Some i' /\ i' = i).
      { clear - E. revert last i E. induction keys as [| k keys IH]; intros [| l last] i; cbn [first_diff]; try discriminate.
        destruct (Z.eqb_spec k l) as [->|N].
        - rewrite Z.eqb_refl. destruct (first_diff keys last) eqn:E; cbn [option_map]; [|discriminate].
          intros X; injection X as <-. destruct (IH _ _ E) as (i' & E' & ->). rewrite E'. eexists. split; reflexivity.
        - destruct (Z.eqb_spec l k); [congruence|]. intros X; injection X as <-. eexists; split; reflexivity. }
      destruct X as (i' & E' & ->). eapply first_diff_lex; [congruence | exact E' | lia].
    + assert (lex_lt last keys) by (eapply first_diff_lex; [congruence | exact E | lia]).
      cbn [Nat.add].
      destruct (Nat.eqb (S i) dim && (nth i keys 0 - nth i last 0 <=? 255 - Z.of_nat dim - 1)).
      * auto.
      * assert (U : enc_elems bo (skipn i mms) (skipn i keys) <> UB).
        { assert (F1 := skipn_Forall _ i _ B). assert (F2 := skipn_Forall _ i _ HK).
          assert (Ls : length (skipn i mms) = length (skipn i keys)) by (rewrite !skipn_length; congruence).
          revert F1 F2 Ls. generalize (skipn i mms) (skipn i keys). clear.
          induction l as [| mm l IH]; intros [| k l0] F1 F2 L; cbn [enc_elems]; try discriminate.
          inversion F1; subst. inversion F2; subst. injection L as L.
          assert (I : int_okb (k - fst mm) = true) by (unfold int_okb, INT_MIN, INT_MAX in *; lia).
          rewrite I. specialize (IH l0 H2 H4 L). destruct (enc_elems bo l l0); congruence. }
        destruct (enc_elems bo (skipn i mms) (skipn i keys)); [auto|congruence].
  - apply first_diff_None in E; [|congruence].
    destruct ((0 <? Z.of_nat dim) && (1 <=? count)) eqn:G; [assumption|].
    exfalso. destruct C as [C|C]; [lia|].
    subst keys. destruct last as [| l last]; [cbn in Ll; lia|].
    inversion C; subst. inversion HK; subst. unfold INDEX_INITIAL in *. lia.
Qed.
