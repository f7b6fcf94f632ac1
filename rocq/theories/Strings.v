(** * Strings: checks and repairs on labels, identifiers and texts

    src/gxfile.cpp 82-107, 314-351, 719-724 and src/gdlib/utils.cpp 169-182. *)

From Verif Require Import Base StrHash.

(** gxfile.cpp 82-102 (CanBeQuoted): [s1], [s2] are saw_single and saw_double. *)
Fixpoint can_be_quoted_from (saw_single saw_double : bool) (s : str) : bool :=
  match s with
  | [] => true
  | c :: r =>
      if c =? 39 then if saw_double then false else can_be_quoted_from true saw_double r
      else if c =? 34 then if saw_single then false else can_be_quoted_from saw_single true r
      else if c <? 32 then false
      else can_be_quoted_from saw_single saw_double r
  end.
Definition can_be_quoted (s : str) : bool := can_be_quoted_from false false s.

(** gxfile.cpp 104-107 (GoodUELString); GLOBAL_UEL_IDENT_SIZE is 64. *)
Definition good_uel (s : str) : bool := (zlen s <? 64) && can_be_quoted s.

(** gxfile.cpp 314-332 (MakeGoodExplText): [q] is the first quote seen, 0 for none. *)
Fixpoint make_good_from (q : Z) (s : str) : str :=
  match s with
  | [] => []
  | c :: r =>
      if (c =? 34) || (c =? 39)
      then let q' := if q =? 0 then c else q in q' :: make_good_from q' r
      else (if c <? 32 then 63 else c) :: make_good_from q r
  end.
Definition make_good (s : str) : str := make_good_from 0 s.

(** gxfile.cpp 334-342. *)
Definition is_letter (c : Z) : bool := ((65 <=? c) && (c <=? 90)) || ((97 <=? c) && (c <=? 122)).
Definition is_ident_char (c : Z) : bool := is_letter c || ((48 <=? c) && (c <=? 57)) || (c =? 95).

(** gxfile.cpp 344-351 (IsGoodIdent). *)
Definition good_ident (s : str) : bool :=
  match s with
  | [] => false
  | c :: r => is_letter c && forallb is_ident_char r && (zlen s <? 64)
  end.

(** utils.cpp 169-182 (trimRight): drops the trailing bytes that are at most 32. *)
Fixpoint trim_right (s : str) : str :=
  match s with
  | [] => []
  | c :: r => match trim_right r with
              | [] => if 32 <? c then [c] else []
              | r' => c :: r'
              end
  end.

(** gxfile.cpp 719-724 (assignExplanatoryText), GMS_SSSIZE = 256: texts of 256 or more
    characters are replaced by "String overflow: " followed by the first 235
    characters and "...". *)
Definition overflow_prefix : str := (* "String overflow: " *)
  [83; 116; 114; 105; 110; 103; 32; 111; 118; 101; 114; 102; 108; 111; 119; 58; 32].
Definition assign_expl (s : str) : str :=
  if zlen s <? 256 then s
  else firstn 255 (overflow_prefix ++ firstn 235 s ++ [46; 46; 46]).

(** gdxAddSetText and gdxAddComment cut the text at 255 characters. *)
Definition cut255 (s : str) : str := firstn 255 s.

(** ** Specification *)

(** A text that can be written between quotes: no control characters, and not both
    kinds of quotes. *)
Definition quotable (s : str) : Prop :=
  Forall (fun c => 32 <= c) s /\ ~ (In 39 s /\ In 34 s).

(** A well-formed label: at most 63 bytes and quotable. *)
Definition wf_label (s : str) : Prop := zlen s <= 63 /\ quotable s.

(** A well-formed identifier: a letter, then letters, digits and underscores, at most
    63 bytes. *)
Definition letter (c : Z) : Prop := 65 <= c <= 90 \/ 97 <= c <= 122.
Definition ident_char (c : Z) : Prop := letter c \/ 48 <= c <= 57 \/ c = 95.
Definition wf_ident (s : str) : Prop :=
  zlen s <= 63 /\ exists c r, s = c :: r /\ letter c /\ Forall ident_char r.

Lemma can_be_quoted_from_spec : forall s a b, ~ (a = true /\ b = true) ->
  can_be_quoted_from a b s = true <->
  Forall (fun c => 32 <= c) s /\ ~ ((a = true \/ In 39 s) /\ (b = true \/ In 34 s)).
Proof.
  induction s as [| c s IH]; intros a b N; cbn [can_be_quoted_from].
  - split; [|reflexivity]. intros _. split; [constructor|]. cbn [In]. tauto.
  - destruct (Z.eqb_spec c 39) as [->|N1].
    + destruct b.
      * split; [discriminate|]. intros [_ H]. exfalso. apply H. split; [right; left; reflexivity|auto].
      * rewrite IH by intuition discriminate. cbn [In]. split.
        -- intros [F H]. split; [constructor; [lia|assumption]|]. intros [_ [X|[X|X]]]; try discriminate. apply H. auto.
        -- intros [F H]. inversion F; subst. split; [assumption|]. intros [_ [X|X]]; [discriminate|]. apply H. auto.
    + destruct (Z.eqb_spec c 34) as [->|N2].
      * destruct a.
        -- split; [discriminate|]. intros [_ H]. exfalso. apply H. split; [auto|right; left; reflexivity].
        -- rewrite IH by intuition discriminate. cbn [In]. split.
           ++ intros [F H]. split; [constructor; [lia|assumption]|]. intros [[X|[X|X]] _]; try discriminate. apply H. auto.
           ++ intros [F H]. inversion F; subst. split; [assumption|]. intros [[X|X] _]; [discriminate|]. apply H. auto.
      * destruct (Z.ltb_spec c 32).
        -- split; [discriminate|]. intros [F _]. inversion F; subst. lia.
        -- rewrite IH by assumption. cbn [In]. split.
           ++ intros [F H']. split; [constructor; [lia|assumption]|]. intros [[X|[X|X]] [Y|[Y|Y]]]; try congruence; apply H'; auto.
           ++ intros [F H']. inversion F; subst. split; [assumption|]. intros [[X|X] [Y|Y]]; apply H'; auto.
Qed.

Lemma can_be_quoted_spec : forall s, can_be_quoted s = true <-> quotable s.
Proof.
  intros s. unfold can_be_quoted, quotable. rewrite can_be_quoted_from_spec by intuition discriminate.
  intuition discriminate.
Qed.

Lemma good_uel_spec : forall s, good_uel s = true <-> wf_label s.
Proof.
  intros s. unfold good_uel, wf_label. rewrite andb_true_iff, can_be_quoted_spec, Z.ltb_lt.
  split; intros [A B]; (split; [lia|assumption]).
Qed.

Lemma is_letter_spec : forall c, is_letter c = true <-> letter c.
Proof. intros c. unfold is_letter, letter. lia. Qed.
Lemma is_ident_char_spec : forall c, is_ident_char c = true <-> ident_char c.
Proof.
  intros c. unfold is_ident_char, ident_char. rewrite !orb_true_iff, is_letter_spec. unfold letter. lia.
Qed.

Lemma good_ident_spec : forall s, good_ident s = true <-> wf_ident s.
Proof.
  intros [| c r]; unfold wf_ident; cbn [good_ident].
  - split; [discriminate|]. intros (_ & c & r & E & _). discriminate.
  - rewrite !andb_true_iff, is_letter_spec, forallb_forall, Z.ltb_lt. split.
    + intros [[A B] C]. split; [lia|]. exists c, r. split; [reflexivity|]. split; [assumption|].
      apply Forall_forall. intros x Hx. apply is_ident_char_spec. auto.
    + intros (L & c' & r' & E & A & B). injection E as <- <-. split; [split; [assumption|]|lia].
      intros x Hx. apply is_ident_char_spec. rewrite Forall_forall in B. auto.
Qed.

(** *** Repaired texts are always quotable, and good texts are left alone *)

Lemma make_good_length : forall s q, length (make_good_from q s) = length s.
Proof.
  induction s as [| c s IH]; intros q; [reflexivity|]. cbn [make_good_from].
  destruct ((c =? 34) || (c =? 39)); cbn [length]; rewrite IH; reflexivity.
Qed.

Lemma make_good_from_quotes : forall s q, q = 0 \/ q = 34 \/ q = 39 ->
  Forall (fun c => 32 <= c) (make_good_from q s) /\
  (q <> 0 -> forall c, In c (make_good_from q s) -> c = 34 \/ c = 39 -> c = q) /\
  ~ (In 39 (make_good_from q s) /\ In 34 (make_good_from q s)).
Proof.
  induction s as [| c s IH]; intros q Q; cbn [make_good_from].
  - split; [constructor|]. split; [intros _ c []|intros [[] _]].
  - destruct ((c =? 34) || (c =? 39)) eqn:E.
    + assert (Hc : c = 34 \/ c = 39) by lia.
      set (q' := if q =? 0 then c else q).
      assert (Q' : q' = 34 \/ q' = 39).
      { unfold q'. destruct (Z.eqb_spec q 0); [assumption|]. destruct Q as [Q|Q]; [contradiction|assumption]. }
      destruct (IH q') as (A & B & C); [auto|]. specialize (B ltac:(lia)).
      split; [constructor; [lia|assumption]|]. split.
      * intros Nq c' [<-|I] Hc'; unfold q' in *; destruct (Z.eqb_spec q 0); try contradiction; auto.
      * cbn [In]. intros [[X|X] [Y|Y]]; try (apply B in X; [|tauto]); try (apply B in Y; [|tauto]); lia.
    + destruct (IH q Q) as (A & B & C).
      assert (Hc : 32 <= (if c <? 32 then 63 else c) /\ (if c <? 32 then 63 else c) <> 34 /\ (if c <? 32 then 63 else c) <> 39).
      { destruct (Z.ltb_spec c 32); lia. }
      split; [constructor; [lia|assumption]|]. split.
      * intros Nq c' [<-|I] Hc'; [lia|auto].
      * cbn [In]. intros [[X|X] [Y|Y]]; try lia. tauto.
Qed.

Lemma make_good_quotable : forall s, quotable (make_good s).
Proof.
  intros s. destruct (make_good_from_quotes s 0) as (A & _ & C); [auto|]. split; assumption.
Qed.

Lemma make_good_from_id : forall s q, Forall (fun c => 32 <= c) s ->
  (forall c, In c s -> c = 34 \/ c = 39 -> q = 0 \/ c = q) ->
  ~ (In 39 s /\ In 34 s) -> make_good_from q s = s.
Proof.
  induction s as [| c s IH]; intros q F H N; [reflexivity|].
  inversion F; subst. cbn [make_good_from].
  destruct ((c =? 34) || (c =? 39)) eqn:E.
  - assert (Hc : c = 34 \/ c = 39) by lia.
    assert (Hq : q = 0 \/ c = q) by (apply H; [left; reflexivity|assumption]).
    assert (Q : (if q =? 0 then c else q) = c).
    { destruct (Z.eqb_spec q 0); [reflexivity|]. destruct Hq; congruence. }
    cbv zeta. rewrite Q. f_equal. apply IH; [assumption| |].
    + intros c' I' Hc'. right. cbn [In] in N.
      destruct Hc as [-> | ->], Hc' as [-> | ->]; auto; exfalso; apply N; auto.
    + intros [A B]. apply N. cbn [In]. auto.
  - destruct (Z.ltb_spec c 32); [lia|]. f_equal. apply IH; [assumption| |].
    + intros c' I'. apply H. right; assumption.
    + intros [A B]. apply N. cbn [In]. auto.
Qed.

Lemma make_good_id : forall s, quotable s -> make_good s = s.
Proof. intros s [A B]. apply make_good_from_id; auto. Qed.

(** *** Trimming *)

Lemma trim_right_spec : forall s, exists t, s = trim_right s ++ t /\ Forall (fun c => c <= 32) t /\
  (trim_right s = [] \/ exists p c, trim_right s = p ++ [c] /\ 32 < c).
Proof.
  induction s as [| c s IH]; cbn [trim_right].
  - exists []. split; [reflexivity|]. split; [constructor|]. auto.
  - destruct IH as (t & E & F & L). destruct (trim_right s) as [| d r] eqn:T.
    + destruct (Z.ltb_spec 32 c).
      * exists s. split; [reflexivity|]. cbn [app] in E. subst t. split; [assumption|]. right. exists [], c. auto.
      * exists (c :: s). split; [reflexivity|]. cbn [app] in E. subst t. split; [constructor; [lia|assumption]|]. auto.
    + exists t. split; [cbn [app] in *; congruence|]. split; [assumption|]. right.
      destruct L as [L|(p & e & L & H)]; [discriminate|]. exists (c :: p), e. rewrite L. auto.
Qed.

Lemma trim_right_id : forall s, (s = [] \/ exists p c, s = p ++ [c] /\ 32 < c) -> trim_right s = s.
Proof.
  intros s [->|(p & c & -> & H)]; [reflexivity|].
  induction p as [| d p IH]; cbn [app trim_right].
  - destruct (Z.ltb_spec 32 c); [reflexivity|lia].
  - rewrite IH. destruct (p ++ [c]) eqn:E; [destruct p; discriminate|reflexivity].
Qed.

Lemma trim_right_idem : forall s, trim_right (trim_right s) = trim_right s.
Proof.
  intros s. destruct (trim_right_spec s) as (t & _ & _ & L). apply trim_right_id. assumption.
Qed.

Lemma trim_right_incl : forall s c, In c (trim_right s) -> In c s.
Proof.
  intros s c H. destruct (trim_right_spec s) as (t & E & _). rewrite E. apply in_or_app. auto.
Qed.

Lemma trim_right_length : forall s, zlen (trim_right s) <= zlen s.
Proof.
  intros s. destruct (trim_right_spec s) as (t & E & _). rewrite E at 2. rewrite zlen_app.
  pose proof (zlen_nonneg t). lia.
Qed.

Lemma assign_expl_length : forall s, zlen (assign_expl s) <= 255.
Proof.
  intros s. unfold assign_expl. destruct (Z.ltb_spec (zlen s) 256); [lia|].
  unfold zlen. rewrite firstn_length. lia.
Qed.
