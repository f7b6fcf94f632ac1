(** * LinkedData: the in-memory record list and its radix sort

    src/gdlib/datastorage.hpp 70-265 (TLinkedData).  The linked list is a Coq list of
    (keys, values); FCount is its length. *)

From Coq Require Import Permutation Sorted.
From Verif Require Import Base Records.

Section LD.
Context {V : Type}.

Record ldata := mkLD {
  ld_min : Z;                       (* FMinKey *)
  ld_max : Z;                       (* FMaxKey *)
  ld_dim : nat;                     (* FDimension *)
  ld_recs : list (list Z * V)       (* FHead .. FTail *)
}.

(** datastorage.hpp 108-113 (constructor): FMinKey is INT_MAX, FMaxKey is 0. *)
Definition ld_new (dim : nat) : ldata := mkLD INT_MAX 0 dim [].

(** datastorage.hpp 171-198 (AddItem): append and widen the key range. *)
Definition ld_add (d : ldata) (keys : list Z) (v : V) : ldata :=
  mkLD (fold_left Z.min keys (ld_min d)) (fold_left Z.max keys (ld_max d))
       (ld_dim d) (ld_recs d ++ [(keys, v)]).

(** datastorage.hpp 88-106 (IsSorted): no record is lexicographically smaller than
    its predecessor. *)
Fixpoint key_diff (a b : list Z) : Z :=
  match a, b with
  | x :: a', y :: b' => if x - y =? 0 then key_diff a' b' else x - y
  | _, _ => 0
  end.
Fixpoint ld_sorted_from (prev : list Z) (l : list (list Z * V)) : bool :=
  match l with
  | [] => true
  | r :: l' => if key_diff (fst r) prev <? 0 then false else ld_sorted_from (fst r) l'
  end.
Definition ld_is_sorted (l : list (list Z * V)) : bool :=
  match l with
  | [] => true
  | r :: l' => ld_sorted_from (fst r) l'
  end.

(** datastorage.hpp 216-240, one pass of the radix sort on dimension [d]: the first
    loop distributes the records, in order, over the buckets Head[key-KeyBase] ..
    Tail[key-KeyBase]; the second one concatenates the buckets from the last to the
    first.  [bucket_add] appends to the bucket chain of one key. *)
Fixpoint bucket_add (bs : list (list (list Z * V))) (i : nat) (r : list Z * V)
    : option (list (list (list Z * V))) :=
  match bs, i with
  | [], _ => None
  | b :: bs', O => Some ((b ++ [r]) :: bs')
  | b :: bs', S i' => match bucket_add bs' i' r with
                      | Some bs'' => Some (b :: bs'')
                      | None => None
                      end
  end.

(** Index of a record's bucket; [None] (undefined behaviour: access outside the
    bucket array) when it is negative or too large. *)
Definition bucket_of (kmin : Z) (d : nat) (r : list Z * V) : option nat :=
  match nth_error (fst r) d with
  | Some k => if k - kmin <? 0 then None else Some (Z.to_nat (k - kmin))
  | None => None
  end.

Fixpoint distribute (kmin : Z) (d : nat) (l : list (list Z * V)) (bs : list (list (list Z * V)))
    : option (list (list (list Z * V))) :=
  match l with
  | [] => Some bs
  | r :: l' => match bucket_of kmin d r with
               | Some i => match bucket_add bs i r with
                           | Some bs' => distribute kmin d l' bs'
                           | None => None
                           end
               | None => None
               end
  end.

Definition radix_pass (kmin kmax : Z) (d : nat) (l : list (list Z * V))
    : option (list (list Z * V)) :=
  match distribute kmin d l (repeat [] (Z.to_nat (kmax - kmin + 1))) with
  | Some bs => Some (concat bs)
  | None => None
  end.

(** datastorage.hpp 215: dimensions from the last down to the first. *)
Fixpoint radix_passes (kmin kmax : Z) (d : nat) (l : list (list Z * V))
    : option (list (list Z * V)) :=
  match d with
  | O => Some l
  | S d' => match radix_pass kmin kmax d' l with
            | Some l' => radix_passes kmin kmax d' l'
            | None => None
            end
  end.

(** datastorage.hpp 200-247 (Sort) and 249-254 (StartRead, AMap = nullptr). *)
Definition ld_sort (d : ldata) : option (list (list Z * V)) :=
  if ld_is_sorted (ld_recs d) then Some (ld_recs d)
  else radix_passes (ld_min d) (ld_max d) (ld_dim d) (ld_recs d).

(** ** Specification: stable insertion by lexicographic order *)

Definition lex_le (a b : list Z) : Prop := a = b \/ lex_lt a b.

(** A stable sort of [l]: sorted, a permutation, and records with equal keys stay in
    their original relative order. *)
Definition stable_sort_of (l out : list (list Z * V)) : Prop :=
  Permutation l out /\
  StronglySorted (fun a b => lex_le (fst a) (fst b)) out /\
  forall k, filter (fun r => if list_eq_dec Z.eq_dec (fst r) k then true else false) out
          = filter (fun r => if list_eq_dec Z.eq_dec (fst r) k then true else false) l.

(** *** One pass is a stable bucket sort *)

Definition keyd (d : nat) (r : list Z * V) : Z := nth d (fst r) 0.

Lemma bucket_add_spec : forall bs i r bs', bucket_add bs i r = Some bs' ->
  length bs' = length bs /\
  forall j, nth j bs' [] = if Nat.eqb j i then nth j bs [] ++ [r] else nth j bs [].
Proof.
  induction bs as [| b bs IH]; intros [| i] r bs'; cbn [bucket_add]; try discriminate.
  - intros E; injection E as <-. split; [reflexivity|]. intros [| j]; reflexivity.
  - destruct (bucket_add bs i r) eqn:E; [|discriminate]. intros X; injection X as <-.
    destruct (IH _ _ _ E) as (L & N). split; [cbn; congruence|].
    intros [| j]; [reflexivity|]. cbn [nth Nat.eqb]. apply N.
Qed.

Lemma bucket_add_some : forall bs i r, (i < length bs)%nat -> exists bs', bucket_add bs i r = Some bs'.
Proof.
  induction bs as [| b bs IH]; intros [| i] r L; cbn in L; try lia; cbn [bucket_add]; [eauto|].
  destruct (IH i r) as (bs' & E); [lia|]. rewrite E. eauto.
Qed.

Definition in_bucket (kmin : Z) (d : nat) (j : nat) (r : list Z * V) : bool :=
  keyd d r - kmin =? Z.of_nat j.

Lemma distribute_spec : forall kmin kmax d l bs,
  Forall (fun r => (d < length (fst r))%nat /\ kmin <= keyd d r <= kmax) l ->
  length bs = Z.to_nat (kmax - kmin + 1) ->
  exists bs', distribute kmin d l bs = Some bs' /\ length bs' = length bs /\
    forall j, nth j bs' [] = nth j bs [] ++ filter (in_bucket kmin d j) l.
Proof.
  intros kmin kmax d l. induction l as [| r l IH]; intros bs F L.
  - exists bs. split; [reflexivity|]. split; [reflexivity|]. intros; cbn; rewrite app_nil_r; reflexivity.
  - inversion F as [| ? ? [F1 F2] F3]; subst. cbn [distribute].
    unfold bucket_of. rewrite (nth_error_nth' _ 0 F1). fold (keyd d r).
    destruct (Z.ltb_spec (keyd d r - kmin) 0); [lia|].
    destruct (bucket_add_some bs (Z.to_nat (keyd d r - kmin)) r) as (bs1 & E); [lia|].
    rewrite E. destruct (bucket_add_spec _ _ _ _ E) as (L1 & N1).
    destruct (IH bs1 F3) as (bs' & E' & L' & N'); [congruence|].
    exists bs'. split; [assumption|]. split; [congruence|].
    intros j. rewrite N', N1. cbn [filter]. unfold in_bucket at 2.
    destruct (Nat.eqb_spec j (Z.to_nat (keyd d r - kmin))).
    + subst j. destruct (Z.eqb_spec (keyd d r - kmin) (Z.of_nat (Z.to_nat (keyd d r - kmin)))); [|lia].
      rewrite <- app_assoc. reflexivity.
    + destruct (Z.eqb_spec (keyd d r - kmin) (Z.of_nat j)); [lia|]. reflexivity.
Qed.

(** The result of one pass, bucket by bucket. *)
Fixpoint buckets (kmin : Z) (d : nat) (n : nat) (j : nat) (l : list (list Z * V)) : list (list Z * V) :=
  match n with
  | O => []
  | S n' => filter (in_bucket kmin d j) l ++ buckets kmin d n' (S j) l
  end.

Lemma concat_nth_buckets : forall kmin d l bs j,
  (forall i, (i < length bs)%nat -> nth i bs [] = filter (in_bucket kmin d (j + i)) l) ->
  concat bs = buckets kmin d (length bs) j l.
Proof.
  intros kmin d l bs. induction bs as [| b bs IH]; intros j H; [reflexivity|].
  cbn [concat length buckets].
  specialize (H O) as H0. cbn in H0. rewrite H0 by lia. rewrite Nat.add_0_r. f_equal.
  apply IH. intros i Hi. specialize (H (S i)). cbn [nth length] in H. rewrite H by lia.
  rewrite Nat.add_succ_comm. reflexivity.
Qed.

Lemma radix_pass_buckets : forall kmin kmax d l,
  Forall (fun r => (d < length (fst r))%nat /\ kmin <= keyd d r <= kmax) l ->
  radix_pass kmin kmax d l = Some (buckets kmin d (Z.to_nat (kmax - kmin + 1)) 0 l).
Proof.
  intros kmin kmax d l F. unfold radix_pass.
  destruct (distribute_spec kmin kmax d l (repeat [] (Z.to_nat (kmax - kmin + 1))) F) as (bs & E & L & N).
  { apply repeat_length. }
  rewrite E. f_equal. rewrite repeat_length in L. rewrite <- L.
  apply concat_nth_buckets. intros i _. rewrite N. cbn [Nat.add].
  destruct (nth_in_or_default i (repeat (@nil (list Z * V)) (Z.to_nat (kmax - kmin + 1))) []) as [I|I].
  - apply repeat_spec in I. rewrite I. reflexivity.
  - rewrite I. reflexivity.
Qed.

(** Filtering commutes with a pass when all selected records lie in one bucket. *)
Lemma filter_filter_swap : forall {A} (p q : A -> bool) l, filter p (filter q l) = filter q (filter p l).
Proof.
  intros A p q l. induction l as [| a l IH]; [reflexivity|].
  cbn [filter]. destruct (q a) eqn:Q, (p a) eqn:P; cbn [filter]; rewrite ?Q, ?P, ?IH; reflexivity.
Qed.

Lemma filter_all : forall {A} (p : A -> bool) l, (forall x, In x l -> p x = true) -> filter p l = l.
Proof.
  intros A p l. induction l as [| a l IH]; intros H; [reflexivity|].
  cbn [filter]. rewrite H by (left; reflexivity). f_equal. apply IH. intros; apply H; right; assumption.
Qed.

Lemma filter_none : forall {A} (p : A -> bool) l, (forall x, In x l -> p x = false) -> filter p l = [].
Proof.
  intros A p l. induction l as [| a l IH]; intros H; [reflexivity|].
  cbn [filter]. rewrite H by (left; reflexivity). apply IH. intros; apply H; right; assumption.
Qed.

Lemma filter_buckets_one : forall kmin d (p : list Z * V -> bool) v n j l,
  (forall r, p r = true -> keyd d r - kmin = Z.of_nat v) ->
  filter p (buckets kmin d n j l) =
    if (j <=? v)%nat && (v <? j + n)%nat then filter p l else [].
Proof.
  intros kmin d p v n. induction n as [| n IH]; intros j l Hp; cbn [buckets].
  - destruct (Nat.leb_spec j v), (Nat.ltb_spec v (j + 0)); try lia; reflexivity.
  - rewrite filter_app, IH by assumption.
    destruct (Nat.eq_dec j v) as [->|N].
    + replace (filter p (filter (in_bucket kmin d v) l)) with (filter p l).
      * destruct (Nat.leb_spec (S v) v); [lia|]. cbn [andb]. rewrite app_nil_r.
        destruct (Nat.leb_spec v v), (Nat.ltb_spec v (v + S n)); try lia. reflexivity.
      * rewrite filter_filter_swap. symmetry. apply filter_all. intros x Hx.
        apply filter_In in Hx. destruct Hx as [_ Hx]. apply Hp in Hx. unfold in_bucket. lia.
    + replace (filter p (filter (in_bucket kmin d j) l)) with (@nil (list Z * V)).
      * cbn [app]. destruct (Nat.leb_spec (S j) v), (Nat.leb_spec j v), (Nat.ltb_spec v (S j + n)), (Nat.ltb_spec v (j + S n)); try lia; reflexivity.
      * symmetry. apply filter_none. intros x Hx. apply filter_In in Hx. destruct Hx as [_ Hx].
        destruct (p x) eqn:P; [|reflexivity]. apply Hp in P. unfold in_bucket in Hx. lia.
Qed.

Lemma Permutation_filter_split : forall {A} (p q : A -> bool) l,
  (forall x, In x l -> p x = true -> q x = false) ->
  Permutation (filter p l ++ filter q l) (filter (fun x => p x || q x) l).
Proof.
  intros A p q l. induction l as [| a l IH]; intros H; [constructor|].
  assert (IH' := IH (fun x Hx => H x (or_intror Hx))). cbn [filter].
  destruct (p a) eqn:P.
  - rewrite (H a (or_introl eq_refl) P). cbn [orb app]. constructor. assumption.
  - cbn [orb]. destruct (q a) eqn:Q; [|assumption].
    eapply Permutation_trans; [| apply perm_skip; exact IH'].
    apply Permutation_sym, Permutation_middle.
Qed.

Definition range_p (kmin : Z) (d : nat) (j n : nat) (r : list Z * V) : bool :=
  (Z.of_nat j <=? keyd d r - kmin) && (keyd d r - kmin <? Z.of_nat j + Z.of_nat n).

Lemma filter_ext_in' : forall {A} (p q : A -> bool) l, (forall x, In x l -> p x = q x) -> filter p l = filter q l.
Proof.
  intros A p q l. induction l as [| a l IH]; intros H; [reflexivity|].
  cbn [filter]. rewrite (H a) by (left; reflexivity). rewrite IH; [reflexivity|]. intros; apply H; right; assumption.
Qed.

Lemma buckets_perm_range : forall kmin d n j l,
  Permutation (buckets kmin d n j l) (filter (range_p kmin d j n) l).
Proof.
  intros kmin d n. induction n as [| n IH]; intros j l; cbn [buckets].
  - rewrite filter_none; [constructor|]. intros x _. unfold range_p. lia.
  - eapply Permutation_trans; [apply Permutation_app_head, IH|].
    eapply Permutation_trans; [apply Permutation_filter_split|].
    + intros x _. unfold in_bucket, range_p. lia.
    + erewrite filter_ext_in'; [apply Permutation_refl|].
      intros x _. unfold in_bucket, range_p. lia.
Qed.

Lemma buckets_perm : forall kmin kmax d l,
  Forall (fun r => kmin <= keyd d r <= kmax) l ->
  Permutation (buckets kmin d (Z.to_nat (kmax - kmin + 1)) 0 l) l.
Proof.
  intros kmin kmax d l F. eapply Permutation_trans; [apply buckets_perm_range|].
  rewrite filter_all; [apply Permutation_refl|].
  intros x Hx. rewrite Forall_forall in F. specialize (F x Hx). unfold range_p. lia.
Qed.

Lemma buckets_in : forall kmin d n j l x, In x (buckets kmin d n j l) ->
  In x l /\ Z.of_nat j <= keyd d x - kmin.
Proof.
  intros kmin d n. induction n as [| n IH]; intros j l x; cbn [buckets In]; [tauto|].
  rewrite in_app_iff. intros [H|H].
  - apply filter_In in H. destruct H as [H1 H2]. unfold in_bucket in H2. split; [assumption|lia].
  - apply IH in H. destruct H. split; [assumption|lia].
Qed.

(** *** The passes together *)

(** Order on the key suffix from dimension [d]. *)
Definition suffix_le (d : nat) (a b : list Z * V) : Prop := lex_le (skipn d (fst a)) (skipn d (fst b)).

Lemma StronglySorted_app : forall {A} (R : A -> A -> Prop) l m,
  StronglySorted R l -> StronglySorted R m -> (forall x y, In x l -> In y m -> R x y) ->
  StronglySorted R (l ++ m).
Proof.
  intros A R l m Hl Hm H. induction Hl as [| a l Hl IH Ha]; [assumption|].
  cbn. constructor.
  - apply IH. intros; apply H; [right|]; assumption.
  - apply Forall_app. split; [assumption|]. apply Forall_forall. intros y Hy. apply H; [left; reflexivity|assumption].
Qed.

Lemma StronglySorted_filter : forall {A} (R : A -> A -> Prop) p l,
  StronglySorted R l -> StronglySorted R (filter p l).
Proof.
  intros A R p l H. induction H as [| a l H IH Ha]; [constructor|].
  cbn. destruct (p a); [|assumption]. constructor; [assumption|].
  apply Forall_forall. intros x Hx. apply filter_In in Hx. rewrite Forall_forall in Ha. apply Ha, Hx.
Qed.

Lemma StronglySorted_impl_in : forall {A} (R S : A -> A -> Prop) l,
  (forall x y, In x l -> In y l -> R x y -> S x y) -> StronglySorted R l -> StronglySorted S l.
Proof.
  intros A R S l H F. induction F as [| a l F IH Ha]; [constructor|].
  constructor.
  - apply IH. intros; apply H; try (right; assumption); assumption.
  - rewrite Forall_forall in *. intros x Hx. apply H; [left; reflexivity|right; assumption|auto].
Qed.

Lemma skipn_cons_nth : forall d (l : list Z), (d < length l)%nat -> skipn d l = nth d l 0 :: skipn (S d) l.
Proof.
  induction d; intros [| a l] L; cbn in L; try lia; [reflexivity|].
  cbn [skipn nth]. rewrite IHd by lia. reflexivity.
Qed.

Lemma buckets_sorted : forall kmin d l n j,
  Forall (fun r => (d < length (fst r))%nat) l ->
  StronglySorted (suffix_le (S d)) l ->
  StronglySorted (suffix_le d) (buckets kmin d n j l).
Proof.
  intros kmin d l n. induction n as [| n IH]; intros j F S; cbn [buckets]; [constructor|].
  rewrite Forall_forall in F.
  apply StronglySorted_app.
  - eapply StronglySorted_impl_in; [| apply StronglySorted_filter; exact S].
    intros x y Hx Hy. apply filter_In in Hx, Hy. destruct Hx as [Hx1 Hx2], Hy as [Hy1 Hy2].
    unfold suffix_le, lex_le. rewrite !(skipn_cons_nth d) by auto.
    unfold in_bucket, keyd in *. intros H.
    assert (E : nth d (fst x) 0 = nth d (fst y) 0) by lia. rewrite E.
    destruct H as [H|H]; [left; congruence|right]. cbn [lex_lt]. auto.
  - apply IH; [rewrite Forall_forall; assumption|assumption].
  - intros x y Hx Hy. apply filter_In in Hx. destruct Hx as [Hx1 Hx2].
    apply buckets_in in Hy. destruct Hy as [Hy1 Hy2].
    unfold suffix_le, lex_le. rewrite !(skipn_cons_nth d) by auto. right.
    unfold in_bucket, keyd in *. cbn [lex_lt]. left. lia.
Qed.

Definition kfilter (k : list Z) : list (list Z * V) -> list (list Z * V) :=
  filter (fun r => if list_eq_dec Z.eq_dec (fst r) k then true else false).

Lemma radix_passes_spec : forall kmin kmax dim d l,
  (d <= dim)%nat ->
  Forall (fun r => length (fst r) = dim /\ Forall (fun k => kmin <= k <= kmax) (fst r)) l ->
  StronglySorted (suffix_le d) l ->
  exists out, radix_passes kmin kmax d l = Some out /\
    Permutation l out /\ StronglySorted (suffix_le 0) out /\
    forall k, kfilter k out = kfilter k l.
Proof.
  intros kmin kmax dim d. induction d as [| d IH]; intros l Hd F S; cbn [radix_passes].
  - exists l. repeat split; auto.
  - assert (F' : Forall (fun r => (d < length (fst r))%nat /\ kmin <= keyd d r <= kmax) l).
    { eapply Forall_impl; [| exact F]. intros r [L B]. split; [lia|].
      rewrite Forall_forall in B. apply B. apply nth_In. lia. }
    rewrite radix_pass_buckets by assumption.
    set (l' := buckets kmin d (Z.to_nat (kmax - kmin + 1)) 0 l).
    assert (P : Permutation l' l).
    { apply buckets_perm. eapply Forall_impl; [| exact F']. intros r [_ B]; exact B. }
    destruct (IH l') as (out & E & P' & S' & K).
    + lia.
    + eapply Permutation_Forall; [apply Permutation_sym; exact P | exact F].
    + apply buckets_sorted; [|assumption]. eapply Forall_impl; [| exact F']. intros r [B _]; exact B.
    + exists out. split; [assumption|]. split; [eapply Permutation_trans; [apply Permutation_sym; exact P | exact P']|].
      split; [assumption|].
      intros k. rewrite K. unfold kfilter, l'.
      destruct (in_dec (list_eq_dec Z.eq_dec) k (map fst l)) as [I|I].
      * apply in_map_iff in I. destruct I as (r & Er & Ir).
        rewrite Forall_forall in F'. destruct (F' r Ir) as [A B].
        rewrite (filter_buckets_one kmin d _ (Z.to_nat (keyd d r - kmin))).
        -- destruct (Nat.leb_spec 0 (Z.to_nat (keyd d r - kmin))), (Nat.ltb_spec (Z.to_nat (keyd d r - kmin)) (0 + Z.to_nat (kmax - kmin + 1))); try lia. reflexivity.
        -- intros r'. destruct (list_eq_dec Z.eq_dec (fst r') k); [|discriminate]. intros _.
           unfold keyd in *. rewrite e, <- Er. lia.
      * rewrite !filter_none; [reflexivity| |].
        -- intros x Hx. destruct (list_eq_dec Z.eq_dec (fst x) k); [|reflexivity]. exfalso. apply I. subst k. apply in_map. assumption.
        -- intros x Hx. apply buckets_in in Hx. destruct Hx as [Hx _].
           destruct (list_eq_dec Z.eq_dec (fst x) k); [|reflexivity]. exfalso. apply I. subst k. apply in_map. assumption.
Qed.

(** *** The already-sorted shortcut *)

Lemma key_diff_nonneg : forall a b, length a = length b -> 0 <= key_diff a b -> lex_le b a.
Proof.
  unfold lex_le. induction a as [| x a IH]; intros [| y b] L; try (discriminate L); cbn [key_diff lex_lt]; [auto|].
  injection L as L. destruct (Z.eqb_spec (x - y) 0).
  - intros H. assert (x = y) by lia. subst. destruct (IH b L H) as [->|H']; auto.
  - intros H. right. left. lia.
Qed.

Lemma lex_le_trans : forall a b c, lex_le a b -> lex_le b c -> lex_le a c.
Proof.
  unfold lex_le. intros a b c [->|H1] [->|H2]; auto. right. eapply lex_lt_trans; eauto.
Qed.

Lemma key_diff_neg : forall a b, length a = length b -> key_diff a b < 0 -> lex_lt a b.
Proof.
  induction a as [| x a IH]; intros [| y b] L; try (discriminate L); cbn [key_diff lex_lt]; [lia|].
  injection L as L. destruct (Z.eqb_spec (x - y) 0); intros H.
  - right. split; [lia|auto].
  - left. lia.
Qed.

Lemma ld_sorted_from_spec : forall dim l prev, length prev = dim ->
  Forall (fun r => length (fst r) = dim) l ->
  ld_sorted_from prev l = true ->
  Forall (fun r => lex_le prev (fst r)) l /\ StronglySorted (fun a b => lex_le (fst a) (fst b)) l.
Proof.
  intros dim l. induction l as [| r l IH]; intros prev Lp F; cbn [ld_sorted_from]; [split; constructor|].
  inversion F; subst. destruct (Z.ltb_spec (key_diff (fst r) prev) 0); [discriminate|].
  intros H'. destruct (IH _ H1 H2 H') as (A & B).
  assert (lex_le prev (fst r)) by (apply key_diff_nonneg; [congruence|lia]).
  split.
  - constructor; [assumption|]. eapply Forall_impl; [| exact A]. intros; eapply lex_le_trans; eauto.
  - constructor; assumption.
Qed.

Lemma ld_is_sorted_spec : forall dim l, Forall (fun r => length (fst r) = dim) l ->
  ld_is_sorted l = true -> StronglySorted (fun a b => lex_le (fst a) (fst b)) l.
Proof.
  intros dim [| r l] F H; [constructor|]. inversion F; subst. cbn [ld_is_sorted] in H.
  destruct (ld_sorted_from_spec _ _ _ eq_refl H3 H) as (A & B). constructor; assumption.
Qed.

(** *** The structure built by any sequence of insertions *)

Definition ld_inv (d : ldata) : Prop :=
  Forall (fun r => length (fst r) = ld_dim d /\
                   Forall (fun k => ld_min d <= k <= ld_max d) (fst r)) (ld_recs d).

Lemma fold_min_le : forall l a, fold_left Z.min l a <= a /\ Forall (fun k => fold_left Z.min l a <= k) l.
Proof.
  induction l as [| x l IH]; intros a; cbn [fold_left]; [split; [lia|constructor]|].
  destruct (IH (Z.min a x)) as (A & B). split; [lia|]. constructor; [lia|assumption].
Qed.
Lemma fold_max_ge : forall l a, a <= fold_left Z.max l a /\ Forall (fun k => k <= fold_left Z.max l a) l.
Proof.
  induction l as [| x l IH]; intros a; cbn [fold_left]; [split; [lia|constructor]|].
  destruct (IH (Z.max a x)) as (A & B). split; [lia|]. constructor; [lia|assumption].
Qed.

Lemma ld_add_inv : forall d keys v, ld_inv d -> length keys = ld_dim d -> ld_inv (ld_add d keys v).
Proof.
  intros d keys v H L. unfold ld_inv, ld_add in *; cbn [ld_dim ld_min ld_max ld_recs].
  destruct (fold_min_le keys (ld_min d)) as (A1 & A2).
  destruct (fold_max_ge keys (ld_max d)) as (B1 & B2).
  apply Forall_app. split.
  - eapply Forall_impl; [| exact H]. intros r [H1 H2]. split; [assumption|].
    eapply Forall_impl; [| exact H2]. intros k Hk; cbn beta in *. lia.
  - constructor; [|constructor]. split; [assumption|]. cbn [fst].
    rewrite Forall_forall in *. intros k Hk. specialize (A2 k Hk). specialize (B2 k Hk). lia.
Qed.

Definition ld_build (dim : nat) (l : list (list Z * V)) : ldata :=
  fold_left (fun d r => ld_add d (fst r) (snd r)) l (ld_new dim).

Lemma ld_build_spec : forall dim l, Forall (fun r => length (fst r) = dim) l ->
  ld_inv (ld_build dim l) /\ ld_recs (ld_build dim l) = l /\ ld_dim (ld_build dim l) = dim.
Proof.
  intros dim l F. unfold ld_build.
  assert (G : forall l d, ld_inv d -> ld_dim d = dim -> Forall (fun r => length (fst r) = dim) l ->
     let d' := fold_left (fun d r => ld_add d (fst r) (snd r)) l d in
     ld_inv d' /\ ld_recs d' = ld_recs d ++ l /\ ld_dim d' = dim).
  { clear l F. induction l as [| r l IH]; intros d I D F; cbn [fold_left].
    - rewrite app_nil_r. auto.
    - inversion F; subst. destruct (IH (ld_add d (fst r) (snd r))) as (A & B & C).
      + apply ld_add_inv; congruence.
      + reflexivity.
      + assumption.
      + split; [assumption|]. split; [|assumption]. rewrite B. cbn [ld_add ld_recs].
        rewrite <- app_assoc. destruct r; reflexivity. }
  apply (G l (ld_new dim)); [constructor|reflexivity|assumption].
Qed.

Lemma ld_sort_stable : forall d, ld_inv d ->
  exists out, ld_sort d = Some out /\ stable_sort_of (ld_recs d) out.
Proof.
  intros d I. unfold ld_sort. destruct (ld_is_sorted (ld_recs d)) eqn:E.
  - eexists. split; [reflexivity|]. split; [apply Permutation_refl|]. split; [|reflexivity].
    eapply ld_is_sorted_spec; [|eassumption]. eapply Forall_impl; [| exact I]. intros r [A _]; exact A.
  - destruct (radix_passes_spec (ld_min d) (ld_max d) (ld_dim d) (ld_dim d) (ld_recs d)) as (out & R & P & S & K).
    + lia.
    + exact I.
    + assert (G : forall l, Forall (fun r : list Z * V => length (fst r) = ld_dim d) l -> StronglySorted (suffix_le (ld_dim d)) l).
      { induction l as [| r l IH]; intros F; [constructor|]. inversion F; subst. constructor; [auto|].
        apply Forall_forall. intros y Hy. unfold suffix_le, lex_le. left.
        rewrite Forall_forall in H2. rewrite !skipn_all2; [reflexivity| |]; [rewrite (H2 y Hy)|rewrite H1]; lia. }
      apply G. eapply Forall_impl; [| exact I]. intros r [A _]; exact A.
    + exists out. split; [assumption|]. split; [assumption|]. split; [|exact K].
      eapply StronglySorted_impl_in; [|exact S]. intros x y _ _ H. exact H.
Qed.

End LD.
Arguments ldata : clear implicits.
