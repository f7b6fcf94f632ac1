(** * Properties of the comparison tool gdxdiff: C52, C53, C54 *)

From Coq Require Import String Permutation Sorted Reals Lra.
From Verif Require Import Base Prim Values Records StrHash Strings AStream State FileImage ApiCore ApiRead Api Vocab Segment FloatAcr FloatCmp Cases Diff.
Open Scope Z_scope.
Open Scope list_scope.

(** ** Specification *)

(** A record with these indices is only in file 1, only in file 2, or in both. *)
Inductive change := Only1 (k v : list Z) | Only2 (k v : list Z) | Both (k v1 v2 : list Z).
Definition change_key (c : change) : list Z := match c with Only1 k _ | Only2 k _ => k | Both k _ _ => k end.

Section Spec.
Context (o : dopts) (s1 s2 : side) (typ : Z) (def : list Z) (table : list str) (l1 l2 : list (list Z * list Z)).

(** The two values in place [t] count as equal. *)
Definition agree (v1 v2 : list Z) (t : Z) : Prop := exists x y, znth v1 t = Some x /\ znth v2 t = Some y /\ doubles_equal o s1 s2 x y = Done true.
(** The fields of a record that are compared. *)
Definition compared (t : Z) : Prop :=
  if typ =? dt_par then t = 0 else match o_only o with Some f => t = f | None => In t (o_fields o) /\ In t all_fields end.
(** Two records with the same indices count as equal: two elements of a set if they have the
    same text or the texts are not compared, others if all compared values agree. *)
Definition same_record (v1 v2 : list Z) : Prop :=
  if typ =? dt_set then o_text o = true -> exists t, text_of s1 v1 = Done t /\ text_of s2 v2 = Done t
  else forall t, compared t -> agree v1 v2 t.
(** A record that only one of the files has does not count if it has the default values,
    unless option CmpDefaults is given. *)
Definition ignored (v : list Z) : Prop :=
  o_def o = false /\ (typ = dt_par /\ agree v [0] 0 \/ is_varequ typ = true /\ forall t, In t (o_fields o) -> In t all_fields -> agree v def t).

(** [c] is one of the records of the files. *)
Definition present (c : change) : Prop :=
  match c with
  | Only1 k v => In (k, v) l1 /\ ~ In k (List.map fst l2)
  | Only2 k v => In (k, v) l2 /\ ~ In k (List.map fst l1)
  | Both k v1 v2 => In (k, v1) l1 /\ In (k, v2) l2
  end.
Definition counts (c : change) : Prop :=
  match c with Only1 _ v | Only2 _ v => ~ ignored v | Both _ v1 v2 => ~ same_record v1 v2 end.

(** The labels of a record in the file of differences. *)
Definition labels_of (k : list Z) (ls : list str) : Prop :=
  Forall2 (fun i l => znth table i = Some l \/ (zlen table <= i /\ l = s2z "L__" ++ int_str i)) k ls.
(** The values in the file of differences: all, or the one that was asked for. *)
Definition values_of (v w : list Z) : Prop :=
  match o_only o with Some t => if is_varequ typ then exists x, znth v t = Some x /\ w = [x] else w = v | None => w = v end.
(** The calls that write a change and their answers.  [by_field] is option DiffOnly for
    variables and equations. *)
Definition by_field : bool := o_diff o && is_varequ typ.
Inductive field_lines (k v1 v2 : list Z) : list Z -> list call -> Prop :=
| fl_nil : field_lines k v1 v2 [] []
| fl_skip : forall t ts cs, (In t (o_fields o) -> agree v1 v2 t) -> field_lines k v1 v2 ts cs -> field_lines k v1 v2 (t :: ts) cs
| fl_both : forall t ts cs ls x y, In t (o_fields o) -> ~ agree v1 v2 t -> labels_of k ls -> znth v1 t = Some x -> znth v2 t = Some y -> field_lines k v1 v2 ts cs ->
    field_lines k v1 v2 (t :: ts) (gdxDataWriteStr (ls ++ [field_name t; c_dif1]) [x] :: gdxDataWriteStr (ls ++ [field_name t; c_dif2]) [y] :: cs).
Inductive insert_lines (act : str) (k v : list Z) : list Z -> list call -> Prop :=
| il_nil : insert_lines act k v [] []
| il_skip : forall t ts cs, ~ In t (o_fields o) -> insert_lines act k v ts cs -> insert_lines act k v (t :: ts) cs
| il_one : forall t ts cs ls x, In t (o_fields o) -> labels_of k ls -> znth v t = Some x -> insert_lines act k v ts cs ->
    insert_lines act k v (t :: ts) (gdxDataWriteStr (ls ++ [field_name t; act]) [x] :: cs).
(** A record that only one file has; in a set a text is stored first and its number [n]
    becomes the value. *)
Inductive insert_written (act : str) (s : side) (k v : list Z) : list call -> list resp -> Prop :=
| iw_text : forall ls x rest n t r cs rs, typ = dt_set -> feqb x d_zero = false -> v = x :: rest -> d_round x = Some n -> s_text s n = Done t -> labels_of k ls ->
    values_of (fofZ (hd 0 (r_ints r)) :: rest) cs ->
    insert_written act s k v [gdxAddSetText t; gdxDataWriteStr (ls ++ [act]) cs] [r; rs]
| iw_plain : forall ls w rs, (typ = dt_set -> exists x rest, v = x :: rest /\ feqb x d_zero = true) -> by_field = false -> labels_of k ls -> values_of v w ->
    insert_written act s k v [gdxDataWriteStr (ls ++ [act]) w] [rs]
| iw_fields : forall cs rs, by_field = true -> insert_lines act k v all_fields cs -> length rs = length cs -> insert_written act s k v cs rs.
Inductive written : change -> list call -> list resp -> Prop :=
| wr_only1 : forall k v cs rs, insert_written c_ins1 s1 k v cs rs -> written (Only1 k v) cs rs
| wr_only2 : forall k v cs rs, insert_written c_ins2 s2 k v cs rs -> written (Only2 k v) cs rs
| wr_set : forall k v1 v2 ls t1 t2 r1 r2 a b, typ = dt_set -> labels_of k ls -> text_of s1 v1 = Done t1 -> text_of s2 v2 = Done t2 ->
    written (Both k v1 v2) [gdxAddSetText t1; gdxDataWriteStr (ls ++ [c_dif1]) [fofZ (hd 0 (r_ints r1))]; gdxAddSetText t2; gdxDataWriteStr (ls ++ [c_dif2]) [fofZ (hd 0 (r_ints r2))]] [r1; a; r2; b]
| wr_values : forall k v1 v2 ls w1 w2 a b, typ <> dt_set -> by_field = false -> labels_of k ls -> values_of v1 w1 -> values_of v2 w2 ->
    written (Both k v1 v2) [gdxDataWriteStr (ls ++ [c_dif1]) w1; gdxDataWriteStr (ls ++ [c_dif2]) w2] [a; b]
| wr_fields : forall k v1 v2 cs rs, typ <> dt_set -> by_field = true -> field_lines k v1 v2 all_fields cs -> length rs = length cs -> written (Both k v1 v2) cs rs.
Inductive all_written : list change -> list call -> list resp -> Prop :=
| aw_nil : all_written [] [] []
| aw_cons : forall c chs cs rs cs' rs', written c cs rs -> all_written chs cs' rs' -> all_written (c :: chs) (cs ++ cs') (rs ++ rs').
End Spec.

(** ** The order of the records *)

Lemma key_order_spec : forall a b c, length a = length b -> key_order a b = Done c -> (c = 0 -> a = b) /\ (c < 0 -> lex_lt a b) /\ (0 < c -> lex_lt b a).
Proof.
  induction a as [|x a IH]; intros [|y b] c L E; try discriminate L; cbn [key_order] in E; [injection E as <-; split; [reflexivity|lia]|].
  destruct (Z.eqb_spec x y) as [->|N].
  - destruct (IH b c ltac:(cbn in L; lia) E) as (A & B & C). split; [intros X; f_equal; auto|]. split; intros X; cbn [lex_lt]; right; split; auto.
  - destruct (_ && _); [|discriminate]. injection E as <-. split; [lia|]. split; intros X; cbn [lex_lt]; left; lia.
Qed.
Definition key_ok (dim : Z) (k : list Z) : Prop := zlen k = dim /\ Forall (fun i => 0 <= i < 2^31) k.
Lemma key_order_done : forall a b, Forall (fun i => 0 <= i < 2^31) a -> Forall (fun i => 0 <= i < 2^31) b -> exists c, key_order a b = Done c.
Proof.
  induction a as [|x a IH]; intros [|y b] FA FB; cbn [key_order]; try (eexists; reflexivity). pose proof (Forall_inv FA). pose proof (Forall_inv FB). cbn beta in *.
  destruct (x =? y); [apply IH; eapply Forall_inv_tail; eassumption|].
  destruct (Z.leb_spec (- 2 ^ 31) (x - y)); [|lia]. destruct (Z.ltb_spec (x - y) (2 ^ 31)); [|lia]. eexists. reflexivity.
Qed.

(** What the loops look at, in this order. *)
Definition only1 (r : list Z * list Z) : change := Only1 (fst r) (snd r).
Definition only2 (r : list Z * list Z) : change := Only2 (fst r) (snd r).
Fixpoint evs (l1 : list (list Z * list Z)) : list (list Z * list Z) -> list change :=
  fix inner (l2 : list (list Z * list Z)) : list change :=
    match l1, l2 with
    | [], _ => List.map only2 l2
    | _, [] => List.map only1 l1
    | (k1, v1) :: t1, (k2, v2) :: t2 =>
        match key_order k1 k2 with
        | Done c => if c =? 0 then Both k1 v1 v2 :: evs t1 t2 else if c <? 0 then Only1 k1 v1 :: evs t1 l2 else Only2 k2 v2 :: inner t2
        | UB => []
        end
    end.
Lemma evs_nil : forall l2, evs [] l2 = List.map only2 l2.
Proof. destruct l2; reflexivity. Qed.
Lemma evs_nil2 : forall l1, evs l1 [] = List.map only1 l1.
Proof. destruct l1 as [|[k v] l1]; reflexivity. Qed.
Lemma evs_cons : forall k1 v1 t1 k2 v2 t2, evs ((k1, v1) :: t1) ((k2, v2) :: t2) =
  match key_order k1 k2 with
  | Done c => if c =? 0 then Both k1 v1 v2 :: evs t1 t2 else if c <? 0 then Only1 k1 v1 :: evs t1 ((k2, v2) :: t2) else Only2 k2 v2 :: evs ((k1, v1) :: t1) t2
  | UB => []
  end.
Proof. reflexivity. Qed.

Definition klt (a b : change) : Prop := lex_lt (change_key a) (change_key b).
Definition recs_ok (dim : Z) (l : list (list Z * list Z)) : Prop := Forall (key_ok dim) (List.map fst l) /\ StronglySorted lex_lt (List.map fst l).
Lemma recs_ok_tail : forall dim r l, recs_ok dim (r :: l) -> recs_ok dim l /\ key_ok dim (fst r) /\ Forall (fun k => lex_lt (fst r) k) (List.map fst l).
Proof.
  intros dim r l [A B]. cbn [List.map] in *. split; [split; [exact (Forall_inv_tail A)|inversion B; assumption]|]. split; [exact (Forall_inv A)|inversion B; assumption].
Qed.
Lemma below_not_in : forall k (l : list (list Z * list Z)), Forall (fun j => lex_lt k j) (List.map fst l) -> forall v, ~ In (k, v) l.
Proof. intros k l F v I. rewrite Forall_forall in F. apply (lex_lt_irrefl k). apply F. apply (in_map fst) in I. exact I. Qed.
Lemma below_trans : forall k j (l : list (list Z * list Z)), lex_lt k j -> Forall (fun i => lex_lt j i) (List.map fst l) -> Forall (fun i => lex_lt k i) (List.map fst l).
Proof. intros k j l L F. eapply Forall_impl; [|exact F]. intros i H. eapply lex_lt_trans; eassumption. Qed.
Lemma below_in : forall k (l : list (list Z * list Z)), Forall (fun j => lex_lt k j) (List.map fst l) -> ~ In k (List.map fst l).
Proof. intros k l F I. rewrite Forall_forall in F. apply (lex_lt_irrefl k). apply F. exact I. Qed.

(** All records, in increasing order. *)
Lemma evs_spec : forall dim l1 l2, recs_ok dim l1 -> recs_ok dim l2 -> (forall c, In c (evs l1 l2) <-> present l1 l2 c) /\ StronglySorted klt (evs l1 l2).
Proof.
  intros dim. induction l1 as [|[k1 v1] t1 IH1]; intros l2 O1 O2.
  - rewrite evs_nil. split.
    + intros c. rewrite in_map_iff. split; [intros ([k v] & <- & I); split; [exact I|exact (fun x => x)]|]. destruct c as [k v|k v|k a b]; cbn [present]; [intros [[] _]| |intros [[] _]].
      intros [I _]. exists (k, v). split; [reflexivity|exact I].
    + destruct O2 as [_ S]. clear O1. induction l2 as [|[k v] l2 IH]; cbn [List.map] in *; constructor; [apply IH; inversion S; assumption|].
      inversion S; subst. rewrite Forall_map in *. eapply Forall_impl; [|eassumption]. intros r H; exact H.
  - induction l2 as [|[k2 v2] t2 IH2].
    + rewrite evs_nil2. split.
      * intros c. rewrite in_map_iff. split; [intros ([k v] & <- & I); split; [exact I|exact (fun x => x)]|]. destruct c as [k v|k v|k a b]; cbn [present]; [|intros [[] _]|intros [_ []]].
        intros [I _]. exists (k, v). split; [reflexivity|exact I].
      * destruct O1 as [_ S]. clear IH1 O2. revert S. generalize ((k1, v1) :: t1). intros l S. induction l as [|[k v] l IH]; cbn [List.map] in *; constructor; [apply IH; inversion S; assumption|].
        inversion S; subst. rewrite Forall_map in *. eapply Forall_impl; [|eassumption]. intros r H; exact H.
    + destruct (recs_ok_tail _ _ _ O1) as (P1 & K1 & B1). destruct (recs_ok_tail _ _ _ O2) as (P2 & K2 & B2). cbn [fst] in *.
      rewrite evs_cons. destruct (key_order_done k1 k2 (proj2 K1) (proj2 K2)) as [c E]. rewrite E.
      destruct (key_order_spec k1 k2 c) as (C0 & CN & CP); [destruct K1 as [A _], K2 as [B _]; unfold zlen in *; lia|exact E|].
      destruct (Z.eqb_spec c 0) as [Z0|NZ]; [|destruct (Z.ltb_spec c 0) as [NE|PO]].
      * assert (k1 = k2) by auto. subst k2. destruct (IH1 t2 P1 P2) as [I1 S1]. split.
        -- intros ch. cbn [In]. rewrite I1. destruct ch as [k v|k v|k a b]; cbn [present List.map fst In].
           ++ split; [intros [X|[A B]]; [discriminate X|]|].
              ** split; [right; exact A|]. intros [X|X]; [|exact (B X)]. subst k. exact (below_not_in _ _ B1 _ A).
              ** intros [[X|A] B]; [injection X as <- <-; exfalso; apply B; left; reflexivity|]. right. split; [exact A|]. intros X. apply B. right. exact X.
           ++ split; [intros [X|[A B]]; [discriminate X|]|].
              ** split; [right; exact A|]. intros [X|X]; [|exact (B X)]. subst k. exact (below_not_in _ _ B2 _ A).
              ** intros [[X|A] B]; [injection X as <- <-; exfalso; apply B; left; reflexivity|]. right. split; [exact A|]. intros X. apply B. right. exact X.
           ++ split; [intros [X|[A B]]; [injection X as <- <- <-; auto|auto]|]. intros [[X|A] [Y|B]].
              ** injection X as <- <-. injection Y as <-. left. reflexivity.
              ** injection X as <- <-. exfalso. exact (below_not_in _ _ B2 _ B).
              ** injection Y as <- <-. exfalso. exact (below_not_in _ _ B1 _ A).
              ** right. auto.
        -- constructor; [exact S1|]. apply Forall_forall. intros ch I. apply I1 in I. unfold klt. cbn [change_key]. rewrite Forall_forall in B1, B2.
           destruct ch as [k v|k v|k a b]; cbn [present change_key] in *; [apply B1; apply (in_map fst _ (k, v)); apply I|apply B2; apply (in_map fst _ (k, v)); apply I|apply B1; apply (in_map fst _ (k, a)); apply I].
      * specialize (CN NE). assert (B12 : Forall (fun j => lex_lt k1 j) (List.map fst ((k2, v2) :: t2))) by (constructor; [exact CN|eapply below_trans; eassumption]).
        destruct (IH1 ((k2, v2) :: t2) P1 O2) as [I1 S1]. split.
        -- intros ch. cbn [In]. rewrite I1. destruct ch as [k v|k v|k a b]; cbn [present].
           ++ split; [intros [X|[A B]]; [injection X as <- <-; split; [left; reflexivity|apply below_in; exact B12]|split; [right; exact A|exact B]]|].
              intros [[X|A] B]; [injection X as <- <-; left; reflexivity|right; auto].
           ++ split; [intros [X|[A B]]; [discriminate X|]|].
              ** split; [exact A|]. cbn [List.map fst In]. intros [X|X]; [|exact (B X)]. subst k. exact (below_not_in _ _ B12 _ A).
              ** intros [A B]. right. split; [exact A|]. intros X. apply B. right. exact X.
           ++ split; [intros [X|[A B]]; [discriminate X|split; [right; exact A|exact B]]|]. intros [[X|A] B]; [|right; auto]. injection X as <- <-. exfalso. exact (below_not_in _ _ B12 _ B).
        -- constructor; [exact S1|]. apply Forall_forall. intros ch I. apply I1 in I. unfold klt. cbn [change_key]. rewrite Forall_forall in B1, B12.
           destruct ch as [k v|k v|k a b]; cbn [present change_key] in *; [apply B1; apply (in_map fst _ (k, v)); apply I|apply B12; apply (in_map fst _ (k, v)); apply I|apply B1; apply (in_map fst _ (k, a)); apply I].
      * assert (CL : lex_lt k2 k1) by (apply CP; lia). assert (B21 : Forall (fun j => lex_lt k2 j) (List.map fst ((k1, v1) :: t1))) by (constructor; [exact CL|eapply below_trans; eassumption]).
        destruct (IH2 P2) as [I1 S1]. split.
        -- intros ch. cbn [In]. rewrite I1. destruct ch as [k v|k v|k a b]; cbn [present].
           ++ split; [intros [X|[A B]]; [discriminate X|]|].
              ** split; [exact A|]. cbn [List.map fst In]. intros [X|X]; [|exact (B X)]. subst k. exact (below_not_in _ _ B21 _ A).
              ** intros [A B]. right. split; [exact A|]. intros X. apply B. right. exact X.
           ++ split; [intros [X|[A B]]; [injection X as <- <-; split; [left; reflexivity|apply below_in; exact B21]|split; [right; exact A|exact B]]|].
              intros [[X|A] B]; [injection X as <- <-; left; reflexivity|right; auto].
           ++ split; [intros [X|[A B]]; [discriminate X|split; [exact A|right; exact B]]|]. intros [A [X|B]]; [|right; auto]. injection X as <- <-. exfalso. exact (below_not_in _ _ B21 _ A).
        -- constructor; [exact S1|]. apply Forall_forall. intros ch I. apply I1 in I. unfold klt. cbn [change_key]. rewrite Forall_forall in B2, B21.
           destruct ch as [k v|k v|k a b]; cbn [present change_key] in *; [apply B21; apply (in_map fst _ (k, v)); apply I|apply B2; apply (in_map fst _ (k, v)); apply I|apply B21; apply (in_map fst _ (k, a)); apply I].
Qed.

(** ** What the loops do *)

Local Ltac bindinv H := lazymatch type of H with obind ?m _ = Done _ => let x := fresh "x" in let E := fresh "E" in destruct m as [x|] eqn:E; [|discriminate H]; cbn [obind] in H end.

Section M.
Context (z : zlib) (o : dopts) (s1 s2 : side) (table : list str) (maxuel : nat) (name : str) (dim typ uinfo : Z) (def : list Z).
Notation show act s := (show_insert z o s1 s2 table maxuel name dim typ uinfo act s def).
Notation both := (both z o s1 s2 table maxuel name dim typ uinfo).
Notation merge := (merge z o s1 s2 table maxuel name dim typ uinfo def).
Notation inserts act s := (inserts z o s1 s2 table maxuel name dim typ uinfo act s def).

Definition step (c : change) (d : dst) : outcome dst :=
  match c with Only1 k v => show c_ins1 s1 k v d | Only2 k v => show c_ins2 s2 k v d | Both k v1 v2 => both k v1 v2 d end.
Fixpoint steps (cs : list change) (d : dst) : outcome dst :=
  match cs with [] => Done d | c :: cs' => do d <- step c d ;; steps cs' d end.
Lemma inserts1_steps : forall l d, inserts c_ins1 s1 l d = steps (List.map only1 l) d.
Proof. induction l as [|[k v] l IH]; intros d; cbn [Diff.inserts List.map steps step only1 fst snd]; [reflexivity|]. destruct (show c_ins1 s1 k v d); [cbn [obind]; apply IH|reflexivity]. Qed.
Lemma inserts2_steps : forall l d, inserts c_ins2 s2 l d = steps (List.map only2 l) d.
Proof. induction l as [|[k v] l IH]; intros d; cbn [Diff.inserts List.map steps step only2 fst snd]; [reflexivity|]. destruct (show c_ins2 s2 k v d); [cbn [obind]; apply IH|reflexivity]. Qed.
Lemma merge_cons : forall k1 v1 t1 k2 v2 t2 d, merge ((k1, v1) :: t1) ((k2, v2) :: t2) d =
  (do c <- key_order k1 k2 ;;
   if c =? 0 then do d <- both k1 v1 v2 d ;; merge t1 t2 d
   else if c <? 0 then do d <- show c_ins1 s1 k1 v1 d ;; merge t1 ((k2, v2) :: t2) d
   else do d <- show c_ins2 s2 k2 v2 d ;; merge ((k1, v1) :: t1) t2 d).
Proof. reflexivity. Qed.
Lemma merge_steps : forall l1 l2 d d', merge l1 l2 d = Done d' -> steps (evs l1 l2) d = Done d'.
Proof.
  induction l1 as [|[k1 v1] t1 IH1]; intros l2.
  - intros d d' H. rewrite evs_nil. destruct l2 as [|r l2]; exact (eq_trans (eq_sym (inserts2_steps _ _)) H).
  - induction l2 as [|[k2 v2] t2 IH2]; intros d d' H.
    + rewrite evs_nil2. exact (eq_trans (eq_sym (inserts1_steps _ _)) H).
    + rewrite merge_cons in H. rewrite evs_cons. destruct (key_order k1 k2) as [c|]; [|discriminate]. cbn [obind] in H.
      destruct (c =? 0); [|destruct (c <? 0)]; bindinv H; cbn [steps step]; rewrite E; cbn [obind]; [apply IH1; exact H|apply IH1; exact H|apply IH2; exact H].
Qed.

(** *** What was told to the object *)

Definition told (d : dst) (cs : list call) (rs : list resp) (d' : dst) : Prop :=
  x_calls d' = x_calls d ++ cs /\ x_rs d' = x_rs d ++ rs /\ run z cs (x_g d) = Done (rs, x_g d').
Lemma told_nil : forall d, told d [] [] d.
Proof. intros d. split; [symmetry; apply app_nil_r|]. split; [symmetry; apply app_nil_r|reflexivity]. Qed.
Lemma told_app : forall a cs rs b cs' rs' c, told a cs rs b -> told b cs' rs' c -> told a (cs ++ cs') (rs ++ rs') c.
Proof. intros a cs rs b cs' rs' c (A1 & A2 & A3) (B1 & B2 & B3). split; [rewrite B1, A1, app_assoc; reflexivity|]. split; [rewrite B2, A2, app_assoc; reflexivity|]. eapply run_app; eassumption. Qed.
Lemma told_length : forall d cs rs d', told d cs rs d' -> length rs = length cs.
Proof. intros d cs rs d' (_ & _ & R). exact (run_length _ _ _ _ _ R). Qed.
(** The flags of the object's user. *)
Definition flags (d : dst) := (x_reg d, x_open d, x_stat d).
Lemma tell_told : forall c d r d', tell z c d = Done (r, d') -> told d [c] [r] d' /\ flags d' = flags d.
Proof.
  intros c d r d' H. unfold tell in H. destruct (exec z c (x_g d)) as [[r0 g]|] eqn:E; [|discriminate]. cbn [obind] in H. injection H as <- <-. split; [|reflexivity].
  split; [reflexivity|]. split; [reflexivity|]. cbn [run x_g]. rewrite E. reflexivity.
Qed.
Lemma tell__told : forall c d d', tell_ z c d = Done d' -> exists r, told d [c] [r] d' /\ flags d' = flags d.
Proof. intros c d d' H. unfold tell_ in H. destruct (tell z c d) as [[r x]|] eqn:E; [|discriminate]. cbn [obind] in H. injection H as <-. exists r. apply tell_told. exact E. Qed.
Lemma tells_told : forall cs d d', tells z cs d = Done d' -> exists rs, told d cs rs d' /\ flags d' = flags d.
Proof.
  induction cs as [|c cs IH]; intros d d' H; cbn [tells] in H; [injection H as <-; exists []; split; [apply told_nil|reflexivity]|]. bindinv H.
  destruct (tell__told _ _ _ E) as (r & T & F). destruct (IH _ _ H) as (rs & T2 & F2). exists (r :: rs). split; [exact (told_app _ _ _ _ _ _ _ T T2)|congruence].
Qed.
Definition registration (d : dst) : list call := if x_reg d then [] else register_calls table maxuel.
Lemma register_told : forall d d', register_uels z table maxuel d = Done d' -> exists rs, told d (registration d) rs d' /\ flags d' = (true, x_open d, x_stat d).
Proof.
  intros d d' H. unfold register_uels, registration in *. destruct (x_reg d) eqn:R; [injection H as <-; exists []; split; [apply told_nil|unfold flags; rewrite R; reflexivity]|].
  bindinv H. injection H as <-. destruct (tells_told _ _ _ E) as (rs & (A & B & C) & F). exists rs. split; [split; [exact A|split; [exact B|exact C]]|]. unfold flags in *. cbn [set_x_reg x_reg x_open x_stat].
  injection F as _ F2 F3. rewrite F2, F3. reflexivity.
Qed.
Lemma registered : forall d, x_reg d = true -> register_uels z table maxuel d = Done d.
Proof. intros d R. unfold register_uels. rewrite R. reflexivity. Qed.

(** *** The lines of a change, once the symbol is open *)

Lemma key_labels_of : forall k ls, key_labels (key_label table) k = Done ls -> labels_of table k ls.
Proof.
  induction k as [|i k IH]; intros ls H; cbn [key_labels] in H; [injection H as <-; constructor|]. bindinv H. bindinv H. injection H as <-. constructor; [|apply IH; reflexivity].
  unfold key_label in E. destruct (Z.ltb_spec i (zlen table)).
  - destruct (znth table i) as [s|] eqn:N; [|discriminate]. injection E as <-. left. reflexivity.
  - injection E as <-. right. split; [assumption|reflexivity].
Qed.
Lemma key_labels_in : forall k ls, key_labels (fun k => match znth table k with Some s => Done s | None => UB end) k = Done ls -> labels_of table k ls.
Proof.
  induction k as [|i k IH]; intros ls H; cbn [key_labels] in H; [injection H as <-; constructor|]. bindinv H. bindinv H. injection H as <-. constructor; [|apply IH; reflexivity].
  destruct (znth table i) as [s|] eqn:N; [|discriminate]. injection E as <-. left. reflexivity.
Qed.
Lemma labels_unique : forall k ls ls', labels_of table k ls -> labels_of table k ls' -> ls = ls'.
Proof.
  intros k ls ls' F. revert ls'. induction F as [|i l k ls A F IH]; intros ls' G; inversion G as [|? ? ? ? B G2]; subst; [reflexivity|]. f_equal; [|apply IH; exact G2].
  destruct A as [A|[A1 A2]], B as [B|[B1 B2]]; [congruence|apply znth_Some in A; lia|apply znth_Some in B; lia|congruence].
Qed.

Lemma write_diff_told : forall act fld k v d d', x_reg d = true -> write_diff z o table maxuel typ act fld k v d = Done d' ->
  exists ls w r, labels_of table k ls /\ values_of o typ v w /\
    told d [gdxDataWriteStr (if by_field o typ then ls ++ [fld; act] else ls ++ [act]) w] [r] d' /\ flags d' = flags d.
Proof.
  intros act fld k v d d' R H. unfold write_diff in H. rewrite (registered _ R) in H. cbn [obind] in H. bindinv H. rename x into ls. cbv zeta in H. fold (by_field o typ) in H.
  destruct (20 <? _); [discriminate|]. bindinv H. rename x into w. destruct (tell__told _ _ _ H) as (r & T & F). exists ls, w, r. split; [apply key_labels_of; exact E|].
  split; [|split; assumption]. unfold values_of. destruct (o_only o) as [t|]; [|congruence]. destruct (is_varequ typ); [|congruence]. destruct (znth v t) as [x|] eqn:N; [|discriminate]. injection E0 as <-. exists x. auto.
Qed.

(** The options that the tool accepts: 821-835, 838-850. *)
Context (OO : o_diff o = true -> o_only o = None).

Lemma values_by_field : forall v w, by_field o typ = true -> values_of o typ v w -> w = v.
Proof. intros v w B V. unfold by_field in B. apply Bool.andb_true_iff in B. destruct B as [B _]. unfold values_of in V. rewrite (OO B) in V. exact V. Qed.

Lemma doubles_agree : forall v1 v2 t x y e, znth v1 t = Some x -> znth v2 t = Some y -> doubles_equal o s1 s2 x y = Done e -> (e = true <-> agree o s1 s2 v1 v2 t).
Proof.
  intros v1 v2 t x y e X Y E. split; [intros ->; exists x, y; auto|]. intros (x' & y' & X' & Y' & E'). assert (x' = x) by congruence. assert (y' = y) by congruence. subst. congruence.
Qed.
Lemma active_in : forall t, existsb (Z.eqb t) (o_fields o) = true <-> In t (o_fields o).
Proof. intros t. rewrite existsb_exists. split; [intros (x & I & E); apply Z.eqb_eq in E; subst; exact I|intros I; exists t; split; [exact I|apply Z.eqb_refl]]. Qed.
Lemma not_active : forall t, existsb (Z.eqb t) (o_fields o) = false -> ~ In t (o_fields o).
Proof. intros t E I. apply active_in in I. congruence. Qed.

Lemma write_fields_told : forall fs k v1 v2 d d', by_field o typ = true -> x_reg d = true -> write_fields z o s1 s2 table maxuel typ fs k v1 v2 d = Done d' ->
  exists cs rs, field_lines o s1 s2 table k v1 v2 fs cs /\ told d cs rs d' /\ flags d' = flags d.
Proof.
  induction fs as [|t fs IH]; intros k v1 v2 d d' BF R H; cbn [write_fields] in H.
  - injection H as <-. exists [], []. split; [constructor|]. split; [apply told_nil|reflexivity].
  - destruct (existsb (Z.eqb t) (o_fields o)) eqn:A.
    + destruct (znth v1 t) as [x|] eqn:X; [|discriminate]. destruct (znth v2 t) as [y|] eqn:Y; [|discriminate]. bindinv H. pose proof (doubles_agree _ _ _ _ _ _ X Y E) as AG. destruct x0.
      * destruct (IH _ _ _ _ _ BF R H) as (cs & rs & F & T & FL). exists cs, rs. split; [|split; assumption]. apply fl_skip; [intros _; apply AG; reflexivity|exact F].
      * bindinv H. destruct (write_diff_told _ _ _ _ _ _ R E0) as (ls1 & w1 & r1 & L1 & V1 & T1 & F1). bindinv H.
        assert (R1 : x_reg x0 = true) by (unfold flags in F1; congruence). destruct (write_diff_told _ _ _ _ _ _ R1 E1) as (ls2 & w2 & r2 & L2 & V2 & T2 & F2).
        assert (R2 : x_reg x1 = true) by (unfold flags in F2; congruence). destruct (IH _ _ _ _ _ BF R2 H) as (cs & rs & F & T & FL). rewrite BF in *.
        rewrite (values_by_field _ _ BF V1) in T1. rewrite (values_by_field _ _ BF V2), (labels_unique _ _ _ L2 L1) in T2.
        eexists _, _. split; [|split; [exact (told_app _ _ _ _ _ _ _ T1 (told_app _ _ _ _ _ _ _ T2 T))|congruence]]. apply fl_both; [apply active_in; exact A| |exact L1|exact X|exact Y|exact F].
        intros G. apply AG in G. discriminate G.
    + destruct (IH _ _ _ _ _ BF R H) as (cs & rs & F & T & FL). exists cs, rs. split; [|split; assumption]. apply fl_skip; [intros I; exfalso; exact (not_active _ A I)|exact F].
Qed.
Lemma insert_fields_told : forall act fs k v d d', by_field o typ = true -> x_reg d = true -> insert_fields z o table maxuel typ act fs k v d = Done d' ->
  exists cs rs, insert_lines o table act k v fs cs /\ told d cs rs d' /\ flags d' = flags d.
Proof.
  intros act. induction fs as [|t fs IH]; intros k v d d' BF R H; cbn [insert_fields] in H.
  - injection H as <-. exists [], []. split; [constructor|]. split; [apply told_nil|reflexivity].
  - destruct (existsb (Z.eqb t) (o_fields o)) eqn:A.
    + destruct (znth v t) as [x|] eqn:X; [|discriminate]. bindinv H. destruct (write_diff_told _ _ _ _ _ _ R E) as (ls1 & w1 & r1 & L1 & V1 & T1 & F1).
      assert (R1 : x_reg x0 = true) by (unfold flags in F1; congruence). destruct (IH _ _ _ _ BF R1 H) as (cs & rs & F & T & FL). rewrite BF in *.
      rewrite (values_by_field _ _ BF V1) in T1. eexists _, _. split; [|split; [exact (told_app _ _ _ _ _ _ _ T1 T)|congruence]].
      apply il_one; [apply active_in; exact A|exact L1|exact X|exact F].
    + destruct (IH _ _ _ _ BF R H) as (cs & rs & F & T & FL). exists cs, rs. split; [|split; assumption]. apply il_skip; [exact (not_active _ A)|exact F].
Qed.

(** *** Which records count *)

Lemma fields_equal_spec : forall v1 v2 fs e, fields_equal o s1 s2 fs v1 v2 = Done e -> (e = true <-> forall t, In t (o_fields o) -> In t fs -> agree o s1 s2 v1 v2 t).
Proof.
  intros v1 v2. induction fs as [|t fs IH]; intros e H; cbn [fields_equal] in H; [injection H as <-; split; [intros _ ? _ []|reflexivity]|].
  destruct (existsb (Z.eqb t) (o_fields o)) eqn:A.
  - destruct (znth v1 t) as [x|] eqn:X; [|discriminate]. destruct (znth v2 t) as [y|] eqn:Y; [|discriminate]. bindinv H. pose proof (doubles_agree _ _ _ _ _ _ X Y E) as AG. destruct x0.
    + rewrite (IH _ H). split; [intros G t' I [<-|J]; [apply AG; reflexivity|auto]|]. intros G t' I J. apply G; [exact I|right; exact J].
    + injection H as <-. split; [discriminate|]. intros G. apply AG. apply G; [apply active_in; exact A|left; reflexivity].
  - rewrite (IH _ H). split; [intros G t' I [<-|J]; [exfalso; exact (not_active _ A I)|auto]|]. intros G t' I J. apply G; [exact I|right; exact J].
Qed.
Lemma field_equal_spec : forall t v1 v2 e, field_equal o s1 s2 t v1 v2 = Done e -> (e = true <-> agree o s1 s2 v1 v2 t).
Proof. intros t v1 v2 e H. unfold field_equal in H. destruct (znth v1 t) as [x|] eqn:X; [|discriminate]. destruct (znth v2 t) as [y|] eqn:Y; [|discriminate]. eapply doubles_agree; eassumption. Qed.
Lemma values_equal_spec : forall v1 v2 e, typ <> dt_set -> values_equal o s1 s2 typ v1 v2 = Done e -> (e = true <-> same_record o s1 s2 typ v1 v2).
Proof.
  intros v1 v2 e NS H. unfold same_record, compared, values_equal in *. destruct (Z.eqb_spec typ dt_set); [contradiction|]. destruct (typ =? dt_par).
  - rewrite (field_equal_spec _ _ _ _ H). split; [intros G t ->; exact G|]. intros G. apply G. reflexivity.
  - destruct (o_only o) as [f|].
    + rewrite (field_equal_spec _ _ _ _ H). split; [intros G t ->; exact G|]. intros G. apply G. reflexivity.
    + rewrite (fields_equal_spec _ _ _ _ H). split; [intros G t [A B]; apply G; assumption|]. intros G t A B. apply G. split; assumption.
Qed.
Lemma is_default_spec : forall v e, is_default o s1 s2 typ def v = Done e -> (e && negb (o_def o) = true <-> ignored o s1 s2 typ def v).
Proof.
  intros v e H. rewrite Bool.andb_true_iff, Bool.negb_true_iff. unfold ignored, is_default in *. destruct (Z.eqb_spec typ dt_par) as [->|NP].
  - destruct v as [|x v]; [discriminate|]. assert (AG : e = true <-> agree o s1 s2 (x :: v) [0] 0) by (eapply doubles_agree; [reflexivity|reflexivity|exact H]). rewrite AG.
    split; [intros [A B]; split; [exact B|left; auto]|]. intros [B [[_ A]|[A _]]]; [auto|discriminate A].
  - destruct (is_varequ typ) eqn:VE.
    + rewrite (fields_equal_spec _ _ _ _ H). split; [intros [A B]; split; [exact B|right; auto]|]. intros [B [[A _]|[_ A]]]; [contradiction|auto].
    + injection H as <-. split; [intros [A _]; discriminate A|]. intros [_ [[A _]|[A _]]]; [contradiction|discriminate A].
Qed.

(** *** One record *)

(** The symbol is not yet open in the file of differences, or it is. *)
Definition plain_stat (s : status) : Prop := match s with sc_dim10 | sc_dim10_diff => False | _ => True end.
Definition opening (d : dst) : list call := if x_open d then [] else registration d ++ [start_call o name dim typ uinfo].
Definition ready (d : dst) : Prop := plain_stat (x_stat d) /\ (x_open d = true -> x_reg d = true).
Lemma check_open_told : forall d op d', ready d -> check_open z o table maxuel name dim typ uinfo d = Done (op, d') ->
  op = true /\ exists rs, told d (opening d) rs d' /\ flags d' = (true, true, x_stat d).
Proof.
  intros d op d' [PS OR] H. unfold check_open in H. bindinv H. destruct (register_told _ _ E) as (rs & T & F). unfold flags in F. injection F as F1 F2 F3. cbv zeta in H.
  assert (PX : plain_stat (x_stat x)) by (rewrite F3; exact PS). unfold opening.
  assert (X : x_open x = true /\ op = true /\ d' = x \/ x_open x = false /\ exists y, tell_ z (start_call o name dim typ uinfo) x = Done y /\ op = true /\ d' = set_x_open true y).
  { assert (H2 : (if x_open x then Done (true, x) else do d <- tell_ z (start_call o name dim typ uinfo) x ;; Done (true, set_x_open true d)) = Done (op, d')).
    { destruct (x_stat x) eqn:SX; try contradiction; cbv iota in H; rewrite SX in H; exact H. }
    destruct (x_open x); [injection H2 as <- <-; left; auto|]. bindinv H2. injection H2 as <- <-. right. split; [reflexivity|]. eexists. split; [reflexivity|auto]. }
  destruct X as [(O1 & -> & ->)|(O1 & y & TY & -> & ->)].
  - split; [reflexivity|]. rewrite <- F2, O1. assert (R : x_reg d = true) by (apply OR; congruence). unfold registration in T. rewrite R in T. exists rs. split; [exact T|]. unfold flags. congruence.
  - split; [reflexivity|]. rewrite <- F2, O1. destruct (tell__told _ _ _ TY) as (r & T2 & F4). exists (rs ++ [r]). split; [|unfold flags in *; cbn [set_x_open x_reg x_open x_stat]; congruence].
    destruct (told_app _ _ _ _ _ _ _ T T2) as (A & B & C). split; [exact A|]. split; [exact B|exact C].
Qed.
Lemma write_set_diff_told : forall act k t d d', x_reg d = true -> write_set_diff z table maxuel act k t d = Done d' ->
  exists ls r r', labels_of table k ls /\ told d [gdxAddSetText t; gdxDataWriteStr (ls ++ [act]) [fofZ (hd 0 (r_ints r))]] [r; r'] d' /\ flags d' = flags d.
Proof.
  intros act k t d d' R H. unfold write_set_diff in H. rewrite (registered _ R) in H. cbn [obind] in H. bindinv H. destruct (20 <? _); [discriminate|]. bindinv H. destruct x0 as [r d1].
  destruct (tell_told _ _ _ _ E0) as (T1 & F1). destruct (tell__told _ _ _ H) as (r' & T2 & F2). exists x, r, r'. split; [apply key_labels_in; exact E|]. split; [exact (told_app _ _ _ _ _ _ _ T1 T2)|congruence].
Qed.

(** The status after a record that counts. *)
Definition status_after (c : change) (s : status) : status :=
  match s with sc_same => match c with Both _ _ _ => sc_data | _ => sc_key end | _ => s end.
Notation counts := (counts o s1 s2 typ def).
Notation written := (written o s1 s2 typ table).

Lemma show_told : forall act s k v d d', ready d -> show act s k v d = Done d' ->
  (ignored o s1 s2 typ def v /\ d' = d) \/
  (~ ignored o s1 s2 typ def v /\ exists cs rs0 rs, insert_written o typ table act s k v cs rs /\ length rs0 = length (opening d) /\ told d (opening d ++ cs) (rs0 ++ rs) d' /\ flags d' = (true, true, status_after (Only1 k v) (x_stat d))).
Proof.
  intros act s k v d d' RD H. unfold show_insert in H. bindinv H. pose proof (is_default_spec _ _ E) as IG. destruct (x && negb (o_def o)); [left; split; [apply IG; reflexivity|congruence]|]. right.
  split; [intros X; apply IG in X; discriminate X|]. clear IG E x. cbv zeta in H.
  set (d0 := match x_stat d with sc_same => _ | sc_dim10 => _ | _ => _ end) in H.
  assert (D0 : d0 = set_x_stat (status_after (Only1 k v) (x_stat d)) d) by (unfold d0, status_after; destruct RD as [PS _]; destruct d as [? ? ? ? ? []]; cbn in *; try contradiction; reflexivity).
  rewrite D0 in H. clear d0 D0. set (d0 := set_x_stat _ d) in H. assert (RD0 : ready d0).
  { destruct RD as [PS OR]. split; [|exact OR]. unfold d0. cbn [x_stat set_x_stat]. unfold status_after. destruct (x_stat d); try contradiction; exact Logic.I. }
  assert (H' : (do (op, d) <- check_open z o table maxuel name dim typ uinfo d0 ;;
        if negb op then Done d
        else
          do (v, d) <- (match v with
                        | x :: rest =>
                            if (typ =? dt_set) && negb (feqb x d_zero) then
                              match d_round x with
                              | None => UB
                              | Some n =>
                                  do t <- s_text s n ;;
                                  do (r, d) <- tell z (gdxAddSetText t) d ;;
                                  Done (fofZ (hd 0 (r_ints r)) :: rest, d)
                              end
                            else Done (v, d)
                        | [] => UB
                        end) ;;
          if o_diff o && is_varequ typ then insert_fields z o table maxuel typ act all_fields k v d
          else write_diff z o table maxuel typ act [] k v d) = Done d') by (destruct RD0 as [PS _]; destruct (x_stat d0); try contradiction; exact H).
  clear H. rename H' into H. bindinv H. destruct x as [op d1]. destruct (check_open_told _ _ _ RD0 E) as (-> & rs0 & T0 & F0). cbn [negb] in H. bindinv H. destruct x as [w d2].
  change (told d (opening d) rs0 d1) in T0.
  assert (FS : x_stat d0 = status_after (Only1 k v) (x_stat d)) by reflexivity. rewrite FS in F0. clear E FS RD0. clearbody d0. clear d0.
  assert (R1 : x_reg d1 = true) by (unfold flags in F0; congruence).
  fold (by_field o typ) in H. destruct v as [|x rest]; [discriminate|]. destruct ((typ =? dt_set) && negb (feqb x d_zero)) eqn:TX.
  - apply Bool.andb_true_iff in TX. destruct TX as [TS FZ]. apply Z.eqb_eq in TS. apply Bool.negb_true_iff in FZ. destruct (d_round x) as [n|] eqn:DR; [|discriminate]. bindinv E0. rename x0 into t. bindinv E0. destruct x0 as [r d3]. injection E0 as <- <-.
    destruct (tell_told _ _ _ _ E1) as (T1 & F1). assert (R3 : x_reg d3 = true) by (unfold flags in *; congruence).
    assert (BF : by_field o typ = false) by (unfold by_field, is_varequ; rewrite TS; apply Bool.andb_false_r). rewrite BF in H.
    destruct (write_diff_told _ _ _ _ _ _ R3 H) as (ls & wv & r' & L & V & T2 & F2). rewrite BF in T2.
    exists [gdxAddSetText t; gdxDataWriteStr (ls ++ [act]) wv], rs0, [r; r']. split; [eapply iw_text; [exact TS|exact FZ|reflexivity|exact DR|exact E|exact L|exact V]|].
    split; [exact (told_length _ _ _ _ T0)|split; [exact (told_app _ _ _ _ _ _ _ T0 (told_app _ _ _ _ _ _ _ T1 T2))|congruence]].
  - injection E0 as <- <-. destruct (by_field o typ) eqn:BF.
    + destruct (insert_fields_told _ _ _ _ _ _ BF R1 H) as (cs & rs & IL & T & F). exists cs, rs0, rs. split; [apply iw_fields; [exact BF|exact IL|exact (told_length _ _ _ _ T)]|].
      split; [exact (told_length _ _ _ _ T0)|split; [exact (told_app _ _ _ _ _ _ _ T0 T)|congruence]].
    + destruct (write_diff_told _ _ _ _ _ _ R1 H) as (ls & wv & r' & L & V & T2 & F2). rewrite BF in T2. exists [gdxDataWriteStr (ls ++ [act]) wv], rs0, [r'].
      split; [|split; [exact (told_length _ _ _ _ T0)|split; [exact (told_app _ _ _ _ _ _ _ T0 T2)|congruence]]]. eapply iw_plain; [|exact BF|exact L|exact V]. intros TS. exists x, rest. split; [reflexivity|].
      rewrite TS in TX. cbn in TX. apply Bool.negb_false_iff in TX. exact TX.
Qed.

Lemma both_told : forall k v1 v2 d d', ready d -> both k v1 v2 d = Done d' ->
  (same_record o s1 s2 typ v1 v2 /\ d' = d) \/
  (~ same_record o s1 s2 typ v1 v2 /\ exists cs rs0 rs, written (Both k v1 v2) cs rs /\ length rs0 = length (opening d) /\ told d (opening d ++ cs) (rs0 ++ rs) d' /\ flags d' = (true, true, status_after (Both k v1 v2) (x_stat d))).
Proof.
  intros k v1 v2 d d' RD H. unfold Diff.both in H. bindinv H. destruct x as [e d1]. assert (H2 : match x_stat d1 with sc_same => if e then d1 else set_x_stat sc_data d1 | _ => d1 end = d') by congruence. clear H.
  assert (X : (same_record o s1 s2 typ v1 v2 /\ e = true /\ d1 = d) \/
    (~ same_record o s1 s2 typ v1 v2 /\ e = false /\ exists cs rs0 rs, written (Both k v1 v2) cs rs /\ length rs0 = length (opening d) /\ told d (opening d ++ cs) (rs0 ++ rs) d1 /\ flags d1 = (true, true, x_stat d))).
  { destruct (Z.eqb_spec typ dt_set) as [TS|NS].
    - unfold same_record. assert (TE : (typ =? dt_set) = true) by (rewrite TS; reflexivity). rewrite TE. clear TE. destruct (o_text o); [|left; injection E as <- <-; split; [discriminate|auto]]. unfold check_set in E. bindinv E. rename x into t1. bindinv E. rename x into t2.
      destruct (str_eqb t1 t2) eqn:EQ.
      + injection E as <- <-. left. apply str_eqb_spec in EQ. subst t2. split; [intros _; exists t1; auto|auto].
      + right. split; [intros X; destruct (X eq_refl) as (t & A & B); assert (t1 = t2) by congruence; subst; rewrite (proj2 (str_eqb_spec t2 t2) eq_refl) in EQ; discriminate EQ|].
        bindinv E. destruct x as [op d2]. destruct (check_open_told _ _ _ RD E2) as (-> & rs0 & T0 & F0). cbn [negb] in E. assert (R2 : x_reg d2 = true) by (unfold flags in F0; congruence).
        bindinv E. destruct (write_set_diff_told _ _ _ _ _ R2 E3) as (ls & r1 & r1' & L1 & T1 & F1). assert (R3 : x_reg x = true) by (unfold flags in *; congruence).
        bindinv E. destruct (write_set_diff_told _ _ _ _ _ R3 E4) as (ls2 & r2 & r2' & L2 & T2 & F2). injection E as <- <-. split; [reflexivity|]. rewrite (labels_unique _ _ _ L2 L1) in T2.
        eexists _, rs0, _. split; [|split; [exact (told_length _ _ _ _ T0)|split; [exact (told_app _ _ _ _ _ _ _ T0 (told_app _ _ _ _ _ _ _ T1 T2))|congruence]]]. apply (wr_set o s1 s2 typ table k v1 v2 ls t1 t2 r1 r2 r1' r2'); assumption.
    - unfold check_par in E. bindinv E. pose proof (values_equal_spec _ _ _ NS E0) as VE. destruct x; [injection E as <- <-; left; split; [apply VE; reflexivity|auto]|].
      right. split; [intros X; apply VE in X; discriminate X|]. bindinv E. destruct x as [op d2]. destruct (check_open_told _ _ _ RD E1) as (-> & rs0 & T0 & F0). cbn [negb] in E.
      assert (R2 : x_reg d2 = true) by (unfold flags in F0; congruence). fold (by_field o typ) in E. destruct (by_field o typ) eqn:BF.
      + bindinv E. injection E as <- <-. destruct (write_fields_told _ _ _ _ _ _ BF R2 E2) as (cs & rs & FL & T & F). split; [reflexivity|]. exists cs, rs0, rs. split; [apply wr_fields; [exact NS|exact BF|exact FL|exact (told_length _ _ _ _ T)]|].
        split; [exact (told_length _ _ _ _ T0)|split; [exact (told_app _ _ _ _ _ _ _ T0 T)|congruence]].
      + bindinv E. destruct (write_diff_told _ _ _ _ _ _ R2 E2) as (ls & w1 & r1 & L1 & V1 & T1 & F1). assert (R3 : x_reg x = true) by (unfold flags in *; congruence).
        bindinv E. destruct (write_diff_told _ _ _ _ _ _ R3 E3) as (ls2 & w2 & r2 & L2 & V2 & T2 & F2). injection E as <- <-. split; [reflexivity|]. rewrite BF in *. rewrite (labels_unique _ _ _ L2 L1) in T2.
        eexists _, rs0, _. split; [|split; [exact (told_length _ _ _ _ T0)|split; [exact (told_app _ _ _ _ _ _ _ T0 (told_app _ _ _ _ _ _ _ T1 T2))|congruence]]]. apply wr_values; assumption. }
  destruct X as [(SR & -> & ->)|(NSR & -> & cs & rs0 & rs & W & RL & T & F)].
  - left. split; [exact SR|]. rewrite <- H2. destruct (x_stat d); reflexivity.
  - right. split; [exact NSR|]. exists cs, rs0, rs. split; [exact W|]. split; [exact RL|]. unfold flags in F. injection F as F1 F2 F3. rewrite <- H2. split.
    + destruct (x_stat d1); exact T.
    + unfold flags, status_after. rewrite <- F3. destruct (x_stat d1) eqn:S1; cbn [set_x_stat x_reg x_open x_stat]; rewrite ?S1, F1, F2; reflexivity.
Qed.

Lemma step_told : forall c d d', ready d -> step c d = Done d' ->
  (~ counts c /\ d' = d) \/
  (counts c /\ exists cs rs0 rs, written c cs rs /\ length rs0 = length (opening d) /\ told d (opening d ++ cs) (rs0 ++ rs) d' /\ flags d' = (true, true, status_after c (x_stat d))).
Proof.
  intros [k v|k v|k v1 v2] d d' RD H; cbn [step] in H; unfold PropDiff.counts.
  - destruct (show_told _ _ _ _ _ _ RD H) as [[A ->]|[A (cs & rs0 & rs & W & RL & T & F)]]; [left; split; [intros X; exact (X A)|reflexivity]|]. right. split; [exact A|]. exists cs, rs0, rs. split; [constructor; exact W|]. split; [exact RL|]. split; [exact T|exact F].
  - destruct (show_told _ _ _ _ _ _ RD H) as [[A ->]|[A (cs & rs0 & rs & W & RL & T & F)]]; [left; split; [intros X; exact (X A)|reflexivity]|]. right. split; [exact A|]. exists cs, rs0, rs. split; [constructor; exact W|]. split; [exact RL|]. split; [exact T|exact F].
  - destruct (both_told _ _ _ _ _ RD H) as [[A ->]|[A (cs & rs0 & rs & W & RL & T & F)]]; [left; split; [intros X; exact (X A)|reflexivity]|]. right. split; [exact A|]. exists cs, rs0, rs. auto.
Qed.
Lemma ready_after : forall d d' c, ready d -> flags d' = (true, true, status_after c (x_stat d)) -> ready d'.
Proof.
  intros d d' c [PS _] F. unfold flags in F. injection F as F1 F2 F3. split; [|intros _; exact F1]. rewrite F3. unfold status_after. destruct (x_stat d); try contradiction; try exact Logic.I. destruct c; exact Logic.I.
Qed.

(** The status after these changes. *)
Definition status_of (chs : list change) (s : status) : status := match chs with [] => s | c :: _ => status_after c s end.
Lemma steps_told : forall evs d d', ready d -> steps evs d = Done d' ->
  exists chs, (forall c, In c chs <-> In c evs /\ counts c) /\ (forall R : change -> change -> Prop, StronglySorted R evs -> StronglySorted R chs) /\ x_stat d' = status_of chs (x_stat d) /\
    match chs with
    | [] => d' = d
    | _ => x_open d' = true /\ x_reg d' = true /\ exists cs rs0 rs, all_written o s1 s2 typ table chs cs rs /\ length rs0 = length (opening d) /\ told d (opening d ++ cs) (rs0 ++ rs) d'
    end.
Proof.
  induction evs0 as [|c es IH]; intros d d' RD H; cbn [steps] in H.
  - injection H as <-. exists []. split; [intros c; cbn [In]; tauto|]. split; [intros R S; exact S|]. split; reflexivity.
  - bindinv H. rename x into d1. destruct (step_told _ _ _ RD E) as [[NC ->]|[CT (cs & rs0 & rs & W & RL & T & F)]].
    + destruct (IH _ _ RD H) as (chs & I & SS & ST & X). exists chs. split; [intros c'; rewrite I; cbn [In]; split; [tauto|intros [[->|A] B]; [contradiction|auto]]|].
      split; [intros R S; apply SS; inversion S; assumption|]. split; [exact ST|exact X].
    + pose proof (ready_after _ _ _ RD F) as RD1. destruct (IH _ _ RD1 H) as (chs & I & SS & ST & X). unfold flags in F. injection F as F1 F2 F3. exists (c :: chs).
      split; [intros c'; cbn [In]; rewrite I; split; [intros [->|[A B]]; auto|intros [[->|A] B]; auto]|].
      split; [intros R S; inversion S as [|? ? S2 FA]; subst; constructor; [apply SS; exact S2|]; apply Forall_forall; intros c' I'; apply I in I'; rewrite Forall_forall in FA; apply FA; apply I'|].
      assert (SA : forall c', status_after c' (status_after c (x_stat d)) = status_after c (x_stat d)) by (intros c'; unfold status_after; destruct (x_stat d); try reflexivity; destruct c; reflexivity).
      split; [rewrite ST, F3; destruct chs; cbn [status_of]; [reflexivity|apply SA]|].
      destruct chs as [|c2 chs].
      * subst d'. split; [exact F2|]. split; [exact F1|]. exists (cs ++ []), rs0, (rs ++ []). split; [constructor; [exact W|constructor]|]. split; [exact RL|]. rewrite !app_nil_r. exact T.
      * destruct X as (X1 & X2 & cs' & rs0' & rs' & W' & RL' & T'). split; [exact X1|]. split; [exact X2|]. unfold opening in T', RL'. rewrite F2 in T', RL'. cbn [app] in T'.
        assert (N0 : rs0' = []) by (destruct rs0'; [reflexivity|discriminate RL']).
        exists (cs ++ cs'), rs0, (rs ++ rs'). split; [constructor; assumption|]. split; [exact RL|]. subst rs0'. rewrite !app_assoc. exact (told_app _ _ _ _ _ _ _ T T').
Qed.

(** *** A symbol of 20 dimensions: nothing is written *)

Definition wide (d : dst) : Prop := (x_stat d = sc_dim10 \/ x_stat d = sc_dim10_diff) /\ x_open d = false.
Lemma check_open_wide : forall d op d', wide d -> check_open z o table maxuel name dim typ uinfo d = Done (op, d') -> op = false /\ wide d' /\ x_stat d' = sc_dim10_diff.
Proof.
  intros d op d' [S OP] H. unfold check_open in H. bindinv H. destruct (register_told _ _ E) as (rs & _ & F). unfold flags in F. injection F as F1 F2 F3. cbv zeta in H. unfold wide.
  destruct S as [S|S]; rewrite F3, S in H; cbn [set_x_stat x_stat x_open] in H; rewrite ?F3, ?S in H; injection H as <- <-; cbn [set_x_stat x_stat x_open]; rewrite ?F2, ?F3; auto.
Qed.
Lemma step_wide : forall c d d', wide d -> step c d = Done d' -> wide d' /\ (x_stat d' = sc_dim10_diff <-> x_stat d = sc_dim10_diff \/ counts c).
Proof.
  assert (SI : forall act s k v d d', wide d -> show act s k v d = Done d' -> wide d' /\ (x_stat d' = sc_dim10_diff <-> x_stat d = sc_dim10_diff \/ ~ ignored o s1 s2 typ def v)).
  { intros act s k v d d' [S OP] H. unfold show_insert in H. bindinv H. pose proof (is_default_spec _ _ E) as IG. destruct (x && negb (o_def o)).
    - injection H as <-. split; [split; assumption|]. assert (ignored o s1 s2 typ def v) by (apply IG; reflexivity). tauto.
    - assert (~ ignored o s1 s2 typ def v) by (intros X; apply IG in X; discriminate X). cbv zeta in H. unfold wide.
      destruct S as [S|S]; rewrite S in H; cbn [set_x_stat x_stat] in H; rewrite ?S in H; injection H as <-; cbn [set_x_stat x_stat x_open]; rewrite ?S; (split; [auto|]); tauto. }
  intros [k v|k v|k v1 v2] d d' W H; cbn [step] in H; unfold PropDiff.counts; [exact (SI _ _ _ _ _ _ W H)|exact (SI _ _ _ _ _ _ W H)|].
  unfold Diff.both in H. bindinv H. destruct x as [e d1]. assert (H2 : match x_stat d1 with sc_same => if e then d1 else set_x_stat sc_data d1 | _ => d1 end = d') by congruence. clear H.
  assert (X : (same_record o s1 s2 typ v1 v2 /\ d1 = d) \/ (~ same_record o s1 s2 typ v1 v2 /\ wide d1 /\ x_stat d1 = sc_dim10_diff)).
  { destruct (Z.eqb_spec typ dt_set) as [TS|NS].
    - unfold same_record. assert (TE : (typ =? dt_set) = true) by (rewrite TS; reflexivity). rewrite TE. clear TE. destruct (o_text o); [|left; injection E as <- <-; split; [discriminate|auto]].
      unfold check_set in E. bindinv E. rename x into t1. bindinv E. rename x into t2. destruct (str_eqb t1 t2) eqn:EQ.
      + injection E as <- <-. left. apply str_eqb_spec in EQ. subst t2. split; [intros _; exists t1; auto|auto].
      + right. split; [intros X; destruct (X eq_refl) as (t & A & B); assert (t1 = t2) by congruence; subst; rewrite (proj2 (str_eqb_spec t2 t2) eq_refl) in EQ; discriminate EQ|].
        bindinv E. destruct x as [op d2]. destruct (check_open_wide _ _ _ W E2) as (-> & W2 & S2). cbn [negb] in E. injection E as <- <-. auto.
    - unfold check_par in E. bindinv E. pose proof (values_equal_spec _ _ _ NS E0) as VE. destruct x; [injection E as <- <-; left; split; [apply VE; reflexivity|auto]|].
      right. split; [intros X; apply VE in X; discriminate X|]. bindinv E. destruct x as [op d2]. destruct (check_open_wide _ _ _ W E1) as (-> & W2 & S2). cbn [negb] in E. injection E as <- <-. auto. }
  destruct X as [[SR ->]|(NSR & W1 & S1)].
  - assert (d' = d) by (rewrite <- H2; destruct W as [[S|S] _]; rewrite S; reflexivity). clear H2. subst d'. split; [exact W|]. tauto.
  - assert (d' = d1) by (rewrite <- H2, S1; reflexivity). clear H2. subst d'. split; [exact W1|]. rewrite S1. tauto.
Qed.
Lemma steps_wide : forall es d d', wide d -> steps es d = Done d' -> wide d' /\ (x_stat d' = sc_dim10_diff <-> x_stat d = sc_dim10_diff \/ exists c, In c es /\ counts c).
Proof.
  induction es as [|c es IH]; intros d d' W H; cbn [steps] in H; [injection H as <-; split; [exact W|]; split; [auto|intros [A|(c & [] & _)]; exact A]|].
  bindinv H. destruct (step_wide _ _ _ W E) as [W1 S1]. destruct (IH _ _ W1 H) as [W2 S2]. split; [exact W2|]. rewrite S2, S1. cbn [In]. split.
  - intros [[A|A]|(c' & I & A)]; [left; exact A|right; exists c; auto|right; exists c'; auto].
  - intros [A|(c' & [<-|I] & A)]; [auto|auto|right; exists c'; auto].
Qed.
End M.

(** ** C52: what is reported about two symbols *)

(** For two symbols of the same type and dimension with records in increasing order: the
    changes [chs] are exactly the records that only one file has, unless they count as default
    records, and the records of both that differ.  Without any nothing is written and the
    symbols count as the same.  Otherwise the labels are registered if they were not yet, the
    symbol is started in the file of differences under its name, each change is written in
    increasing order, and the symbol is completed. *)
Theorem C52_changes : forall z o s1 s2 table maxuel name dim typ uinfo def l1 l2 d d',
  (o_diff o = true -> o_only o = None) -> def_values typ uinfo = Done def -> dim < 20 -> recs_ok dim l1 -> recs_ok dim l2 -> x_open d = false -> x_stat d = sc_same ->
  compare_records z o s1 s2 table maxuel name dim typ uinfo l1 l2 d = Done d' ->
  exists chs, (forall c, In c chs <-> present l1 l2 c /\ counts o s1 s2 typ def c) /\ StronglySorted klt chs /\
    match chs with
    | [] => d' = d
    | c :: _ =>
        x_stat d' = match c with Both _ _ _ => sc_data | _ => sc_key end /\ x_open d' = false /\
        exists cs rs0 rs r, all_written o s1 s2 typ table chs cs rs /\ length rs0 = S (length (registration table maxuel d)) /\
          told z d (registration table maxuel d ++ start_call o name dim typ uinfo :: cs ++ [gdxDataWriteDone]) (rs0 ++ rs ++ [r]) d'
    end.
Proof.
  intros z o s1 s2 table maxuel name dim typ uinfo def l1 l2 d d' OO DV DL O1 O2 XO XS H. unfold compare_records in H. rewrite DV in H. cbn [obind] in H.
  replace ((20 <=? dim) || (o_diff o && (20 <=? dim - 1))) with false in H by (destruct (Z.leb_spec 20 dim); [lia|]; destruct (Z.leb_spec 20 (dim - 1)); [lia|]; rewrite Bool.andb_false_r; reflexivity).
  cbv zeta in H. bindinv H. rename x into d1. apply merge_steps in E.
  assert (RD : ready d) by (split; [rewrite XS; exact Logic.I|rewrite XO; discriminate]).
  destruct (steps_told z o s1 s2 table maxuel name dim typ uinfo def OO _ _ _ RD E) as (chs & I & SS & ST & X). destruct (evs_spec dim l1 l2 O1 O2) as [EV SO]. exists chs.
  split; [intros c; rewrite I, EV; reflexivity|]. split; [apply SS; exact SO|]. destruct chs as [|c chs].
  - subst d1. unfold symb_close in H. rewrite XO in H. congruence.
  - destruct X as (X1 & X2 & cs & rs0 & rs & W & RL & T). rewrite XS in ST. unfold symb_close in H. rewrite X1 in H. destruct (tell__told _ _ _ _ H) as (r & T2 & F). unfold flags in F. cbn [set_x_open x_reg x_open x_stat] in F. injection F as F1 F2 F3.
    split; [rewrite F3, ST; reflexivity|]. split; [exact F2|]. exists cs, rs0, rs, r. split; [exact W|]. unfold opening in *. rewrite XO in *. split; [rewrite RL, app_length; cbn [length]; lia|].
    change (told z d1 [gdxDataWriteDone] [r] d') in T2. pose proof (told_app _ _ _ _ _ _ _ _ T T2) as TT. rewrite <- !app_assoc in TT. cbn [app] in TT. exact TT.
Qed.

(** A symbol of 20 dimensions cannot be written with one more; it is only reported. *)
Theorem C52_wide : forall z o s1 s2 table maxuel name typ uinfo def l1 l2 d d',
  (o_diff o = true -> o_only o = None) -> def_values typ uinfo = Done def -> recs_ok 20 l1 -> recs_ok 20 l2 -> x_open d = false ->
  compare_records z o s1 s2 table maxuel name 20 typ uinfo l1 l2 d = Done d' ->
  x_open d' = false /\ (x_stat d' = sc_dim10 \/ x_stat d' = sc_dim10_diff) /\
  (x_stat d' = sc_dim10_diff <-> exists c, present l1 l2 c /\ counts o s1 s2 typ def c).
Proof.
  intros z o s1 s2 table maxuel name typ uinfo def l1 l2 d d' OO DV O1 O2 XO H. unfold compare_records in H. rewrite DV in H. cbn [obind] in H. change (20 <=? 20) with true in H. cbn [orb] in H. cbv zeta in H.
  bindinv H. rename x into d1. apply merge_steps in E. assert (W : wide (set_x_stat sc_dim10 d)) by (split; [left; reflexivity|exact XO]).
  destruct (steps_wide z o s1 s2 table maxuel name 20 typ uinfo def OO _ _ _ W E) as [[WS WO] S2]. destruct (evs_spec 20 l1 l2 O1 O2) as [EV _].
  unfold symb_close in H. rewrite WO in H. injection H as <-. split; [exact WO|]. split; [exact WS|]. rewrite S2. cbn [set_x_stat x_stat]. split.
  - intros [A|(c & I & A)]; [discriminate A|]. exists c. split; [apply EV; exact I|exact A].
  - intros (c & P & A). right. exists c. split; [apply EV; exact P|exact A].
Qed.

(** The tool reads the default record of an equation at the place of its type code, which in a
    file is 53 for =E= and so on, in an array of seven rows: comparing two equations, even an
    equation with itself, reads outside of the array. *)
Theorem C52_equations_refuted : forall z o s1 s2 table maxuel name dim uinfo l1 l2 d, 53 <= uinfo <= 59 ->
  compare_records z o s1 s2 table maxuel name dim dt_equ uinfo l1 l2 d = UB.
Proof.
  intros z o s1 s2 table maxuel name dim uinfo l1 l2 d U. unfold compare_records, def_values. change (dt_equ =? dt_var) with false. change (dt_equ =? dt_equ) with true. cbv iota.
  destruct (Z.ltb_spec uinfo 7); [lia|]. rewrite Bool.andb_false_r. reflexivity.
Qed.

(** ** C53: which values count as equal *)

(** Two ordinary numbers, without options: if they are the same number. *)
Theorem C53_same_number : forall v1 v2 x y, num v1 x -> num v2 y -> (numbers_equal no_options v1 v2 = true <-> x = y).
Proof.
  intros v1 v2 x y X Y. unfold numbers_equal, fabs. cbn [o_abs o_rel no_options]. cbv zeta. pose proof (distance_leb v1 v2 0 x y 0%R X Y num_zero) as D.
  change (fltb d_zero 0) with false. cbv iota. destruct (fleb (fsub v1 v2 mod 2 ^ 63) 0); split; try discriminate; try reflexivity.
  - intros _. apply (distance_zero v1 v2 x y X Y). apply Rle_antisym; [apply D; reflexivity|]. apply round_NE_pos.
  - intros ->. apply D. unfold Rminus. rewrite Rplus_opp_r, Rabs_R0, Generic_fmt.round_0; [apply Rle_refl|]. typeclasses eauto.
Qed.
(** With an absolute tolerance [t] and no relative one: if their distance, rounded to the
    nearest double, is at most [t]. *)
Theorem C53_tolerance : forall o v1 v2 x y t, num v1 x -> num v2 y -> num (o_abs o) t -> o_rel o = 0 ->
  (numbers_equal o v1 v2 = true <-> (rnd64 (Rabs (x - y)) <= t)%R).
Proof.
  intros o v1 v2 x y t X Y T R. unfold numbers_equal, fabs. rewrite R. cbv zeta. pose proof (distance_leb v1 v2 _ x y t X Y T) as D. change (fltb d_zero 0) with false. cbv iota.
  destruct (fleb (fsub v1 v2 mod 2 ^ 63) (o_abs o)); [tauto|]. split; [discriminate|]. intros L. apply D in L. discriminate L.
Qed.
(** Numbers that are as close as the absolute tolerance always count as equal. *)
Theorem C53_close_enough : forall o v1 v2 x y t, num v1 x -> num v2 y -> num (o_abs o) t -> (Rabs (x - y) <= t)%R -> numbers_equal o v1 v2 = true.
Proof.
  intros o v1 v2 x y t X Y T L. unfold numbers_equal, fabs. cbv zeta. rewrite (proj2 (distance_leb v1 v2 _ x y t X Y T)); [reflexivity|]. apply round_NE_le; [apply (num_format (o_abs o)); exact T|exact L].
Qed.

(** The tolerances of a run: 690-699, a number that is not negative. *)
Definition tolerances (o : dopts) (t q : R) : Prop := num (o_abs o) t /\ num (o_rel o) q /\ (0 <= t)%R /\ (0 <= q)%R.
Lemma no_tolerance : tolerances no_options 0 0.
Proof. split; [exact num_zero|]. split; [exact num_zero|]. split; apply Rle_refl. Qed.
Definition is_double (v : Z) : Prop := 0 <= v < 2^64 /\ exists x, num v x.

(** A number is equal to itself, the order of the files does not matter, and larger tolerances
    keep numbers equal. *)
Theorem C53_reflexive : forall o t q v, tolerances o t q -> is_double v -> numbers_equal o v v = true.
Proof.
  intros o t q v (T & _ & P & _) [_ [x X]]. apply (C53_close_enough o v v x x t X X T). unfold Rminus. rewrite Rplus_opp_r, Rabs_R0. exact P.
Qed.
Theorem C53_symmetric : forall o v1 v2, is_double v1 -> is_double v2 -> numbers_equal o v1 v2 = numbers_equal o v2 v1.
Proof.
  intros o v1 v2 [B1 [x X]] [B2 [y Y]]. unfold numbers_equal, fabs. cbv zeta. unfold fdiv. unfold fleb at 1 2 4 5. rewrite (distance_sym v1 v2 x y X Y).
  replace (of_bits (fadd d_one (if fleb (v1 mod 2^63) (v2 mod 2^63) then v1 mod 2^63 else v2 mod 2^63))) with (of_bits (fadd d_one (if fleb (v2 mod 2^63) (v1 mod 2^63) then v2 mod 2^63 else v1 mod 2^63))); [reflexivity|].
  pose proof (fleb_num _ _ _ _ (num_abs _ _ B1 X) (num_abs _ _ B2 Y)) as L1. pose proof (fleb_num _ _ _ _ (num_abs _ _ B2 Y) (num_abs _ _ B1 X)) as L2.
  unfold fadd. destruct (fleb (v1 mod 2^63) (v2 mod 2^63)), (fleb (v2 mod 2^63) (v1 mod 2^63)); try reflexivity.
  - assert (E : Rabs y = Rabs x) by (apply Rle_antisym; [apply L2; reflexivity|apply L1; reflexivity]). rewrite (abs_same _ _ _ _ B2 B1 Y X E). reflexivity.
  - destruct (Rle_or_lt (Rabs x) (Rabs y)) as [A|A]; [apply L1 in A; discriminate A|]. apply Rlt_le in A. apply L2 in A. discriminate A.
Qed.
Theorem C53_looser : forall o o' t q t' q' v1 v2, tolerances o t q -> tolerances o' t' q' -> (t <= t')%R -> (q <= q')%R -> numbers_equal o v1 v2 = true -> numbers_equal o' v1 v2 = true.
Proof.
  intros o o' t q t' q' v1 v2 (T & Q & PT & PQ) (T' & Q' & PT' & PQ') LT LQ H. unfold numbers_equal in *. cbv zeta in *.
  destruct (fleb (fabs (fsub v1 v2)) (o_abs o)) eqn:A; [rewrite (fleb_larger _ _ _ _ _ T T' LT A); reflexivity|]. destruct (fleb (fabs (fsub v1 v2)) (o_abs o')); [reflexivity|].
  destruct (fltb d_zero (o_rel o)) eqn:P; [|discriminate H]. apply (fltb_num _ _ _ _ num_zero Q) in P. rewrite (proj2 (fltb_num d_zero _ _ _ num_zero Q')); [|eapply Rlt_le_trans; eassumption].
  exact (fleb_larger _ _ _ _ _ Q Q' LQ H).
Qed.

(** Any two values: the order of the files does not matter. *)
Theorem C53_files_swapped : forall o s1 s2 v1 v2 a1 a2, is_double v1 -> is_double v2 -> s_acro s1 v1 = Done a1 -> s_acro s2 v2 = Done a2 ->
  doubles_equal o s1 s2 v1 v2 = doubles_equal o s2 s1 v2 v1.
Proof.
  intros o s1 s2 v1 v2 a1 a2 D1 D2 A1 A2. unfold doubles_equal. cbv zeta. destruct (s_class s1 v1 =? sv_normal), (s_class s2 v2 =? sv_normal); try reflexivity.
  - rewrite A1, A2. cbn [obind]. destruct a1 as [n1|], a2 as [n2|]; rewrite ?(C53_symmetric o v1 v2 D1 D2); try reflexivity. f_equal.
    destruct (str_eqb (upper n1) (upper n2)) eqn:E; destruct (str_eqb (upper n2) (upper n1)) eqn:F; try reflexivity.
    + apply str_eqb_spec in E. rewrite E, (proj2 (str_eqb_spec _ _) eq_refl) in F. discriminate F.
    + apply str_eqb_spec in F. rewrite F, (proj2 (str_eqb_spec _ _) eq_refl) in E. discriminate E.
  - f_equal. apply Z.eqb_sym.
Qed.
Lemma doubles_equal_self : forall o t q s v a, tolerances o t q -> is_double v -> s_acro s v = Done a -> doubles_equal o s s v v = Done true.
Proof.
  intros o t q s v a T D A. unfold doubles_equal. cbv zeta. destruct (s_class s v =? sv_normal); [|rewrite Z.eqb_refl; reflexivity]. rewrite A. cbn [obind]. destruct a as [n|].
  - rewrite (proj2 (str_eqb_spec _ _) eq_refl). reflexivity.
  - rewrite (C53_reflexive o t q v T D). reflexivity.
Qed.

(** ** C54: no differences *)

(** What the records of a symbol hold: five numbers whose acronyms can be named; in a set, a text. *)
Definition value_ok (s : side) (v : Z) : Prop := is_double v /\ exists a, s_acro s v = Done a.
Definition fields_ok (o : dopts) : Prop := match o_only o with Some t => 0 <= t < 5 | None => True end.
Definition values_ok (s : side) (typ : Z) (v : list Z) : Prop :=
  zlen v = 5 /\ (if typ =? dt_set then exists t, text_of s v = Done t else Forall (value_ok s) v).
Lemma field_at : forall s v t, zlen v = 5 -> Forall (value_ok s) v -> 0 <= t < 5 -> exists x, znth v t = Some x /\ value_ok s x.
Proof.
  intros s v t L F B. destruct (znth v t) as [x|] eqn:N.
  - exists x. split; [reflexivity|]. unfold znth in N. destruct (t <? 0); [discriminate|]. apply nth_error_In in N. rewrite Forall_forall in F. apply F. exact N.
  - exfalso. unfold znth, zlen in *. destruct (Z.ltb_spec t 0); [lia|]. apply nth_error_None in N. lia.
Qed.
Lemma both_self : forall z o s table maxuel name dim typ uinfo t q k v d, tolerances o t q -> fields_ok o -> values_ok s typ v ->
  both z o s s table maxuel name dim typ uinfo k v v d = Done d.
Proof.
  intros z o s table maxuel name dim typ uinfo t q k v d T FO [L V]. unfold both. destruct (typ =? dt_set).
  - destruct V as [x X]. assert (E : (if o_text o then check_set z o s s table maxuel name dim typ uinfo k v v d else Done (true, d)) = Done (true, d)).
    { destruct (o_text o); [|reflexivity]. unfold check_set. rewrite X. cbn [obind]. rewrite (proj2 (str_eqb_spec _ _) eq_refl). reflexivity. }
    rewrite E. cbn [obind]. destruct (x_stat d); reflexivity.
  - assert (FE : forall f, 0 <= f < 5 -> field_equal o s s f v v = Done true).
    { intros f B. unfold field_equal. destruct (field_at s v f L V B) as (x & N & D & a & A). rewrite N. exact (doubles_equal_self o t q s x a T D A). }
    assert (FS : forall fs, Forall (fun f => 0 <= f < 5) fs -> fields_equal o s s fs v v = Done true).
    { induction fs as [|f fs IH]; intros F; cbn [fields_equal]; [reflexivity|]. pose proof (FE f (Forall_inv F)) as E. unfold field_equal in E.
      destruct (existsb (Z.eqb f) (o_fields o)); [|exact (IH (Forall_inv_tail F))]. destruct (znth v f) as [x|]; [|discriminate E]. rewrite E. cbn [obind]. exact (IH (Forall_inv_tail F)). }
    assert (VE : values_equal o s s typ v v = Done true).
    { unfold values_equal. destruct (typ =? dt_par); [apply FE; lia|]. unfold fields_ok in FO. destruct (o_only o) as [f|]; [apply FE; exact FO|]. apply FS. unfold all_fields. repeat constructor; lia. }
    unfold check_par. rewrite VE. cbn [obind]. destruct (x_stat d); reflexivity.
Qed.
Lemma key_order_self : forall k, key_order k k = Done 0.
Proof. induction k as [|i k IH]; cbn [key_order]; [reflexivity|]. rewrite Z.eqb_refl. exact IH. Qed.

(** A symbol is the same as itself: nothing is reported and nothing is written. *)
Theorem C54_self : forall z o s table maxuel name dim typ uinfo def t q l d, tolerances o t q -> fields_ok o -> def_values typ uinfo = Done def -> dim < 20 -> x_open d = false ->
  Forall (fun r => values_ok s typ (snd r)) l -> compare_records z o s s table maxuel name dim typ uinfo l l d = Done d.
Proof.
  intros z o s table maxuel name dim typ uinfo def t q l d T FO DV DL XO F. unfold compare_records. rewrite DV. cbn [obind].
  replace ((20 <=? dim) || (o_diff o && (20 <=? dim - 1))) with false by (destruct (Z.leb_spec 20 dim); [lia|]; destruct (Z.leb_spec 20 (dim - 1)); [lia|]; rewrite Bool.andb_false_r; reflexivity).
  cbv zeta. assert (M : merge z o s s table maxuel name dim typ uinfo def l l d = Done d).
  { induction l as [|[k v] l IH]; [reflexivity|]. rewrite merge_cons, key_order_self. cbn [obind]. change (0 =? 0) with true. cbv iota.
    rewrite (both_self z o s table maxuel name dim typ uinfo t q k v d T FO (Forall_inv F)). cbn [obind]. apply IH. exact (Forall_inv_tail F). }
  rewrite M. cbn [obind]. unfold symb_close. rewrite XO. reflexivity.
Qed.
(** Not so for minus infinity, which is not the special value -INF of GAMS: its distance to
    itself is not a number. *)
Theorem C54_self_infinity_refuted : exists v, 0 <= v < 2^64 /\ doubles_equal no_options (side_of rle_zlib (new_object [])) (side_of rle_zlib (new_object [])) v v = Done false.
Proof. exists (2^63 + 2047 * 2^52). split; [lia|]. vm_compute. reflexivity. Qed.

(** *** The summary *)

(** An alias is compared as a set. *)
Definition kind (typ : Z) : Z := if typ =? dt_alias then dt_set else typ.
(** Two symbols that the tool compares and finds nothing. *)
Definition same_symbol (o : dopts) (s1 s2 : side) (a b : syminfo) (l1 l2 : list (list Z * list Z)) : Prop :=
  kind (i_typ a) = kind (i_typ b) /\ i_dim a = i_dim b /\
  (o_doms o = true -> 0 < i_dim a -> Forall2 (fun x y => upper x = upper y) (i_doms a) (i_doms b)) /\
  exists def, def_values (kind (i_typ a)) (i_uinfo a) = Done def /\ forall c, present l1 l2 c -> ~ counts o s1 s2 (kind (i_typ a)) def c.
Definition file_ok (f : dfile) : Prop :=
  NoDup (List.map (fun s => upper (i_name (fst s))) f) /\ Forall (fun s => i_dim (fst s) <= 20 /\ zlen (i_doms (fst s)) = i_dim (fst s) /\ recs_ok (i_dim (fst s)) (snd s)) f.
Lemma same_names_spec : forall a b, length a = length b -> (same_names a b = true <-> Forall2 (fun x y => upper x = upper y) a b).
Proof.
  unfold same_names. induction a as [|x a IH]; intros [|y b] L; try discriminate L; cbn [combine forallb fst snd]; [split; [constructor|reflexivity]|].
  rewrite Bool.andb_true_iff, (IH b) by (cbn in L; lia). rewrite str_eqb_spec. split; [intros [A B]; constructor; assumption|intros H; inversion H; auto].
Qed.
Lemma compare_sy_same : forall z o s1 s2 table maxuel a b l1 l2 d d', (o_diff o = true -> o_only o = None) ->
  i_dim a <= 20 -> zlen (i_doms a) = i_dim a -> recs_ok (i_dim a) l1 -> zlen (i_doms b) = i_dim b -> recs_ok (i_dim b) l2 ->
  compare_sy z o s1 s2 table maxuel a b l1 l2 d = Done d' -> (differs (x_stat d') = false <-> same_symbol o s1 s2 a b l1 l2).
Proof.
  intros z o s1 s2 table maxuel a b l1 l2 d d' OO DL LA O1 LB O2 H. unfold compare_sy in H. cbv zeta in H. unfold same_symbol. change kind with set_for_alias.
  destruct (Z.eqb_spec (set_for_alias (i_typ a)) (set_for_alias (i_typ b))) as [TE|TN]; cbn [negb] in H; [|injection H as <-; split; [discriminate|intros (A & _); contradiction]].
  destruct (Z.eqb_spec (i_dim a) (i_dim b)) as [DE|DN]; cbn [negb] in H; [|injection H as <-; split; [discriminate|intros (_ & A & _); contradiction]].
  assert (SN : same_names (i_doms a) (i_doms b) = true <-> Forall2 (fun x y => upper x = upper y) (i_doms a) (i_doms b)) by (apply same_names_spec; unfold zlen in *; lia).
  destruct (o_doms o && (0 <? i_dim a) && negb (same_names (i_doms a) (i_doms b))) eqn:DO.
  { injection H as <-. split; [discriminate|]. intros (_ & _ & A & _). apply Bool.andb_true_iff in DO. destruct DO as [DO N]. apply Bool.andb_true_iff in DO. destruct DO as [DO P]. apply Z.ltb_lt in P.
    apply Bool.negb_true_iff in N. rewrite (proj2 SN (A DO P)) in N. discriminate N. }
  assert (DOM : o_doms o = true -> 0 < i_dim a -> Forall2 (fun x y => upper x = upper y) (i_doms a) (i_doms b)).
  { intros A B. apply SN. rewrite A in DO. apply Z.ltb_lt in B. rewrite B in DO. cbn [andb] in DO. apply Bool.negb_false_iff in DO. exact DO. }
  destruct (def_values (set_for_alias (i_typ a)) (i_uinfo a)) as [def|] eqn:DV; [|unfold compare_records in H; rewrite DV in H; discriminate H].
  assert (XO : x_open (set_x_open false (set_x_stat sc_same d)) = false) by reflexivity. assert (XS : x_stat (set_x_open false (set_x_stat sc_same d)) = sc_same) by reflexivity.
  rewrite <- DE in O2. destruct (Z.eq_dec (i_dim a) 20) as [D20|D20].
  - rewrite D20 in O1, O2, H. destruct (C52_wide _ _ _ _ _ _ _ _ _ _ _ _ _ _ OO DV O1 O2 XO H) as (_ & S & X). split.
    + intros DF. split; [exact TE|]. split; [exact DE|]. split; [exact DOM|]. exists def. split; [reflexivity|]. intros c P CT. rewrite (proj2 X (ex_intro _ c (conj P CT))) in DF. discriminate DF.
    + intros (_ & _ & _ & def' & E & NC). assert (def' = def) by congruence. subst def'. destruct S as [S|S]; rewrite S; [reflexivity|]. apply X in S. destruct S as (c & P & CT). exfalso. exact (NC c P CT).
  - assert (D2 : i_dim a < 20) by lia. destruct (C52_changes _ _ _ _ _ _ _ _ _ _ _ _ _ _ _ OO DV D2 O1 O2 XO XS H) as (chs & I & _ & X). destruct chs as [|c chs].
    + subst d'. split; [|reflexivity]. intros _. split; [exact TE|]. split; [exact DE|]. split; [exact DOM|]. exists def. split; [reflexivity|]. intros c P CT. exact (proj2 (I c) (conj P CT)).
    + destruct X as (X & _). split; [intros DF; rewrite X in DF; destruct c; discriminate DF|]. intros (_ & _ & _ & def' & E & NC). assert (def' = def) by congruence. subst def'. exfalso.
      destruct (proj1 (I c) (or_introl eq_refl)) as [P CT]. exact (NC c P CT).
Qed.
Lemma insert_name_perm : forall s f, Permutation (insert_name s f) (s :: f).
Proof.
  intros s. induction f as [|t f IH]; cbn [insert_name]; [apply Permutation_refl|]. destruct (str_before _ _); [|apply Permutation_refl]. eapply perm_trans; [apply perm_skip; exact IH|apply perm_swap].
Qed.
Lemma by_name_perm : forall f, Permutation (by_name f) f.
Proof. induction f as [|s f IH]; cbn; [constructor|]. eapply perm_trans; [apply insert_name_perm|apply perm_skip; exact IH]. Qed.
Lemma find_name_none : forall n f, find_name n f = None <-> ~ In (upper n) (List.map (fun s => upper (i_name (fst s))) f).
Proof.
  intros n f. unfold find_name. split.
  - intros H I. apply in_map_iff in I. destruct I as (s & E & I). pose proof (find_none _ _ H s I) as F. cbn beta in F. rewrite E, (proj2 (str_eqb_spec _ _) eq_refl) in F. discriminate F.
  - intros H. destruct (find _ f) as [s|] eqn:E; [|reflexivity]. apply find_some in E. destruct E as [I E]. apply str_eqb_spec in E. exfalso. apply H. apply in_map_iff. exists s. auto.
Qed.
Lemma find_name_some : forall n f s, NoDup (List.map (fun s => upper (i_name (fst s))) f) -> (find_name n f = Some s <-> In s f /\ upper (i_name (fst s)) = upper n).
Proof.
  intros n f s ND. unfold find_name. split.
  - intros E. apply find_some in E. destruct E as [I E]. apply str_eqb_spec in E. auto.
  - intros [I E]. induction f as [|t f IH]; [destruct I|]. cbn [find]. inversion ND as [|? ? N1 N2]; subst. destruct (str_eqb (upper (i_name (fst t))) (upper n)) eqn:F.
    + destruct I as [->|I]; [reflexivity|]. apply str_eqb_spec in F. exfalso. apply N1. apply in_map_iff. exists s. split; [congruence|exact I].
    + destruct I as [->|I]; [|apply IH; assumption]. rewrite E, (proj2 (str_eqb_spec _ _) eq_refl) in F. discriminate F.
Qed.

(** The tool reports no differences exactly if every symbol that is compared is in both files
    under the same name, with the same type, dimension and (if asked for) domains, and no
    record counts as a change. *)
Theorem C54_no_differences : forall z o s1 s2 table maxuel sel f1 f2 d d' tab, (o_diff o = true -> o_only o = None) -> file_ok f1 -> file_ok f2 ->
  compare_files z o s1 s2 table maxuel sel f1 f2 d = Done (d', tab) ->
  (tab = [] <->
   (forall a l1, In (a, l1) f1 -> sel (i_name a) = true -> exists b l2, In (b, l2) f2 /\ upper (i_name b) = upper (i_name a) /\ same_symbol o s1 s2 a b l1 l2) /\
   (forall b l2, In (b, l2) f2 -> sel (i_name b) = true -> exists a l1, In (a, l1) f1 /\ upper (i_name a) = upper (i_name b))).
Proof.
  intros z o s1 s2 table maxuel sel f1 f2 d d' tab OO [N1 F1] [N2 F2] H. unfold compare_files in H. bindinv H. destruct x as [d1 tab1]. injection H as <- <-.
  assert (SM : forall f s, In s (selected sel f) <-> In s f /\ sel (i_name (fst s)) = true).
  { intros f s. unfold selected. split.
    - intros I. apply (Permutation_in _ (by_name_perm _)) in I. apply filter_In in I. exact I.
    - intros I. apply (Permutation_in _ (Permutation_sym (by_name_perm _))). apply filter_In. exact I. }
  assert (S2 : only_second f1 (selected sel f2) = [] <-> forall b l2, In (b, l2) (selected sel f2) -> exists a l1, In (a, l1) f1 /\ upper (i_name a) = upper (i_name b)).
  { generalize (selected sel f2). intros l. induction l as [|[b l2] l IH]; cbn [only_second]; [split; [intros _ ? ? []|reflexivity]|]. destruct (find_name (i_name b) f1) as [[a l1]|] eqn:FN.
    - apply (find_name_some _ _ _ N1) in FN. cbn [fst] in FN. rewrite IH. split; [intros G b' l2' [E'|I]; [injection E' as <- <-; exists a, l1; exact FN|eauto]|]. intros G b' l2' I. apply (G b' l2'). right. exact I.
    - apply find_name_none in FN. split; [discriminate|]. intros G. exfalso. destruct (G b l2 (or_introl eq_refl)) as (a & l1 & I & E'). apply FN. rewrite <- E'. apply (in_map (fun s => upper (i_name (fst s)))) in I. exact I. }
  assert (S1 : forall l, (forall s, In s l -> In s f1) -> forall d tab d1 tab1, compare_all z o s1 s2 table maxuel f2 l d tab = Done (d1, tab1) ->
    (tab1 = [] <-> tab = [] /\ forall a l1, In (a, l1) l -> exists b l2, In (b, l2) f2 /\ upper (i_name b) = upper (i_name a) /\ same_symbol o s1 s2 a b l1 l2)).
  { clear E SM S2. induction l as [|[a l1] l IH]; intros IN d0 tab d2 tab2 H; cbn [compare_all] in H; [injection H as <- <-; split; [intros ->; split; [reflexivity|intros ? ? []]|tauto]|].
    assert (IN' : forall s, In s l -> In s f1) by (intros s I; apply IN; right; exact I).
    destruct (find_name (i_name a) f2) as [[b l2]|] eqn:FN.
    - apply (find_name_some _ _ _ N2) in FN. cbn [fst] in FN. destruct FN as [IB EB]. bindinv H. rewrite Forall_forall in F1, F2. destruct (F1 _ (IN _ (or_introl eq_refl))) as (A1 & A2 & A3). destruct (F2 _ IB) as (B1 & B2 & B3). cbn [fst snd] in *.
      pose proof (compare_sy_same _ _ _ _ _ _ _ _ _ _ _ _ OO A1 A2 A3 B2 B3 E) as SS. rewrite (IH IN' _ _ _ _ H). destruct (differs (x_stat x)).
      + split; [intros [X _]; destruct tab; discriminate X|]. intros [_ G]. exfalso. destruct (G a l1 (or_introl eq_refl)) as (b' & l2' & IB' & EB' & SY).
        assert ((b', l2') = (b, l2)) as X.
        { assert (Some (b', l2') = Some (b, l2)); [|congruence]. rewrite <- (proj2 (find_name_some (i_name a) f2 (b', l2') N2) (conj IB' EB')). exact (proj2 (find_name_some (i_name a) f2 (b, l2) N2) (conj IB EB)). }
        injection X as -> ->. apply SS in SY. discriminate SY.
      + split; intros [T G]; (split; [exact T|]).
        * intros a' l1' [X|I]; [injection X as <- <-; exists b, l2; split; [exact IB|]; split; [exact EB|apply SS; reflexivity]|eauto].
        * intros a' l1' I. apply (G a' l1'). right. exact I.
    - apply find_name_none in FN. rewrite (IH IN' _ _ _ _ H). split; [intros [X _]; destruct tab; discriminate X|]. intros [_ G]. exfalso. destruct (G a l1 (or_introl eq_refl)) as (b & l2 & IB & EB & _).
      apply FN. rewrite <- EB. apply (in_map (fun s => upper (i_name (fst s)))) in IB. exact IB. }
  assert (S1' := S1 (selected sel f1) (fun s I => proj1 (proj1 (SM f1 s) I)) _ _ _ _ E).
  assert (AP : tab1 ++ only_second f1 (selected sel f2) = [] <-> tab1 = [] /\ only_second f1 (selected sel f2) = []) by (split; [apply app_eq_nil|intros [-> ->]; reflexivity]).
  rewrite AP, S1', S2. split.
  - intros [[_ G1] G2]. split; [intros a l1 I S; apply G1; apply SM; auto|intros b l2 I S; apply (G2 b l2); apply SM; auto].
  - intros [G1 G2]. split; [split; [reflexivity|]|]; [intros a l1 I; apply SM in I; apply G1; apply I|intros b l2 I; apply SM in I; apply (G2 b l2); apply I].
Qed.

(** ** Cases *)

Definition df_table : list str := [c_ins1; c_ins2; c_dif1; c_dif2; s2z "a"; s2z "b"; s2z "c"].
Definition df_side : side := side_of rle_zlib (new_object []).
Definition df_start : dst := mkDst case_start [] [] false false sc_same.
Definition df_one (i : Z) (x : Z) : list Z * list Z := ([i], [fofZ x; 0; 0; 0; 0]).
Definition df_l1 : list (list Z * list Z) := [df_one 4 1; df_one 5 2; df_one 6 0].
Definition df_l2 : list (list Z * list Z) := [df_one 5 3].
Definition df_end : dst := match compare_records rle_zlib no_options df_side df_side df_table 7 (s2z "p") 1 dt_par 0 df_l1 df_l2 df_start with Done d => d | UB => df_start end.
Lemma df_runs : compare_records rle_zlib no_options df_side df_side df_table 7 (s2z "p") 1 dt_par 0 df_l1 df_l2 df_start = Done df_end.
Proof. vm_compute. reflexivity. Qed.
Lemma df_ok1 : recs_ok 1 df_l1.
Proof. split; [repeat constructor; lia|]. repeat constructor; cbn [lex_lt]; lia. Qed.
Lemma df_ok2 : recs_ok 1 df_l2.
Proof. split; [repeat constructor; lia|]. repeat constructor. Qed.
(** Record a is only in file 1, b differs, and c is only in file 1 but has the default value. *)
Example C52_case : x_stat df_end = sc_key /\
  x_calls df_end = register_calls df_table 7 ++
    [gdxDataWriteStrStart (s2z "p") (s2z "Differences") 2 dt_par 0; gdxDataWriteStr [s2z "a"; c_ins1] [fofZ 1; 0; 0; 0; 0];
     gdxDataWriteStr [s2z "b"; c_dif1] [fofZ 2; 0; 0; 0; 0]; gdxDataWriteStr [s2z "b"; c_dif2] [fofZ 3; 0; 0; 0; 0]; gdxDataWriteDone].
Proof. vm_compute. split; reflexivity. Qed.
Example C52_case_meets : exists chs, (forall c, In c chs <-> present df_l1 df_l2 c /\ counts no_options df_side df_side dt_par [0; 0; 0; 0; 0] c) /\ StronglySorted klt chs.
Proof.
  pose proof df_runs as R. pose proof df_ok1 as O1. pose proof df_ok2 as O2. revert R. generalize df_end. intros e R.
  assert (DV : def_values dt_par 0 = Done [0; 0; 0; 0; 0]) by reflexivity. assert (DD : 1 < 20) by lia.
  assert (OO : o_diff no_options = true -> o_only no_options = None) by (intros X; reflexivity).
  destruct (C52_changes _ _ _ _ _ _ _ _ _ _ _ _ _ _ _ OO DV DD O1 O2 (eq_refl : x_open df_start = false) (eq_refl : x_stat df_start = sc_same) R) as (chs & A & B & _). exists chs. auto.
Qed.

(** A variable of 19 dimensions under option DiffOnly: a line has 21 labels, in an array of 20. *)
Definition df_19 : list Z := List.repeat 4 19.
Definition df_diffonly : dopts := mkDopts 0 0 [0; 1; 2; 3; 4] None true true false false.
Theorem C52_diffonly_refuted : compare_records rle_zlib df_diffonly df_side df_side df_table 7 (s2z "v") 19 dt_var 5 [(df_19, [fofZ 1; 0; 0; 0; d_one])] [] df_start = UB.
Proof. vm_compute. reflexivity. Qed.

(** 1 and 1.5 with a tolerance of 0.5, and without. *)
Definition df_half : Z := 1022 * 2^52.
Definition df_15 : Z := 1023 * 2^52 + 2^51.
Definition df_eps : dopts := mkDopts df_half 0 [0; 1; 2; 3; 4] None false true false false.
Lemma df_numbers : num d_one 1 /\ num df_15 (3 / 2) /\ num df_half (1 / 2).
Proof.
  assert (V : forall u m e x, of_bits u = SpecFloat.S754_finite false m e -> (Defs.F2R (Defs.Float Zaux.radix2 (Z.pos m) e) = x) -> num u x).
  { intros u m e x E X. pose proof (of_bits_valid u) as W. exists (BinarySingleNaN.SF2B (of_bits u) W). split; [symmetry; apply BinarySingleNaN.B2SF_SF2B|]. rewrite BinarySingleNaN.is_finite_SF2B, BinarySingleNaN.B2R_SF2B, E.
    split; [reflexivity|]. exact X. }
  split; [|split].
  - apply (V _ 4503599627370496%positive (-52)); [vm_compute; reflexivity|]. unfold Defs.F2R. cbn. lra.
  - apply (V _ 6755399441055744%positive (-52)); [vm_compute; reflexivity|]. unfold Defs.F2R. cbn. lra.
  - apply (V _ 4503599627370496%positive (-53)); [vm_compute; reflexivity|]. unfold Defs.F2R. cbn. lra.
Qed.
Example C53_case : numbers_equal df_eps d_one df_15 = true /\ numbers_equal no_options d_one df_15 = false.
Proof.
  destruct df_numbers as (A & B & C). split.
  - apply (C53_close_enough df_eps _ _ _ _ _ A B C). replace (1 - 3 / 2)%R with (- (1 / 2))%R by lra. rewrite Rabs_Ropp, Rabs_pos_eq; lra.
  - destruct (numbers_equal no_options d_one df_15) eqn:E; [|reflexivity]. apply (C53_same_number _ _ _ _ A B) in E. exfalso. lra.
Qed.

(** The files of the case as wholes: one symbol, and with itself no differences. *)
Definition df_sym (n : str) : syminfo := mkInfo n 1 dt_par 0 [s2z "*"].
Definition df_f1 : dfile := [(df_sym (s2z "q"), df_l2); (df_sym (s2z "p"), df_l1)].
Definition df_f2 : dfile := [(df_sym (s2z "P"), df_l2); (df_sym (s2z "r"), [])].
Definition df_all (n : str) : bool := true.
Example C54_case_differences : match compare_files rle_zlib no_options df_side df_side df_table 7 df_all df_f1 df_f2 df_start with
  | Done (_, tab) => tab = [(s2z "P", sc_key); (s2z "q", sc_notf2); (s2z "r", sc_notf1)] | UB => False end.
Proof. vm_compute. reflexivity. Qed.
Example C54_case_none : match compare_files rle_zlib no_options df_side df_side df_table 7 df_all df_f1 df_f1 df_start with
  | Done (d, tab) => tab = [] /\ x_calls d = [] | UB => False end.
Proof. vm_compute. split; reflexivity. Qed.
Lemma df_file_ok : file_ok df_f1 /\ file_ok df_f2.
Proof.
  split; (split; [vm_compute; apply NoDup_cons; [intros [X|[]]; discriminate X|]; apply NoDup_cons; [intros []|apply NoDup_nil]|]).
  - constructor; [split; [cbn; lia|split; [reflexivity|exact df_ok2]]|]. constructor; [split; [cbn; lia|split; [reflexivity|exact df_ok1]]|]. constructor.
  - constructor; [split; [cbn; lia|split; [reflexivity|exact df_ok2]]|]. constructor; [split; [cbn; lia|split; [reflexivity|split; constructor]]|]. constructor.
Qed.
Lemma df_values : Forall (fun r => values_ok df_side dt_par (snd r)) df_l1.
Proof.
  assert (D : forall v, 0 <= v < 2^64 -> d_exp v <> 2047 -> (exists a, s_acro df_side v = Done a) -> value_ok df_side v) by (intros v B N A; split; [split; [exact B|apply num_some; exact N]|exact A]).
  assert (Z0 : value_ok df_side 0) by (apply D; [lia|vm_compute; discriminate|eexists; vm_compute; reflexivity]).
  assert (P : forall x, In x [0; 1; 2] -> values_ok df_side dt_par [fofZ x; 0; 0; 0; 0]).
  { intros x I. split; [reflexivity|]. change (dt_par =? dt_set) with false. cbv iota. repeat apply Forall_cons; try exact Z0; [|constructor]. cbn [In] in I.
    destruct I as [<-|[<-|[<-|[]]]]; (apply D; [vm_compute; split; [discriminate|reflexivity]|vm_compute; discriminate|eexists; vm_compute; reflexivity]). }
  unfold df_l1. apply Forall_cons; [apply (P 1); cbn; tauto|]. apply Forall_cons; [apply (P 2); cbn; tauto|]. apply Forall_cons; [apply (P 0); cbn; tauto|]. constructor.
Qed.
Example C54_self_case : compare_records rle_zlib no_options df_side df_side df_table 7 (s2z "p") 1 dt_par 0 df_l1 df_l1 df_start = Done df_start.
Proof.
  refine (C54_self rle_zlib no_options df_side df_table 7 (s2z "p") 1 dt_par 0 [0; 0; 0; 0; 0] 0 0 df_l1 df_start no_tolerance Logic.I eq_refl _ eq_refl df_values). reflexivity.
Qed.

Print Assumptions C52_changes.
Print Assumptions C52_wide.
Print Assumptions C52_equations_refuted.
Print Assumptions C52_diffonly_refuted.
Print Assumptions C53_same_number.
Print Assumptions C53_tolerance.
Print Assumptions C53_close_enough.
Print Assumptions C53_reflexive.
Print Assumptions C53_symmetric.
Print Assumptions C53_looser.
Print Assumptions C53_files_swapped.
Print Assumptions C54_self.
Print Assumptions C54_self_infinity_refuted.
Print Assumptions C54_no_differences.
