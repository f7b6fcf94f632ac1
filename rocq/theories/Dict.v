(** * Dict: the label dictionary as a sequence of operations

    The operations the library performs on its label table (TUELTable, a TXStrHashList):
    registering, looking up and renaming (gxfile.cpp 2677-2698), on the hash-table model
    of StrHash.v and on a plain list of labels. *)

From Verif Require Import Base StrHash Strings.

Inductive dop :=
| DAdd (s : str)
| DFind (s : str)
| DRename (old new : str)
| DText (n : Z).

Inductive dres :=
| DNum (n : Z)
| DLabel (s : option str).

(** gxfile.cpp 2677-2698 (gdxRenameUEL) once the table exists: ERR_BADUELSTR, 2, 3 or 0.
    Numbers are 1-based. *)
Definition ERR_BADUELSTR_ : Z := -100017.
Definition h_step (h : hlist unit) (o : dop) : hlist unit * dres :=
  match o with
  | DAdd s => let '(h', n) := hl_add true h s tt in (h', DNum (n + 1))
  | DFind s => let '(h', n) := hl_index true h s in
               (h', DNum (match n with Some n => n + 1 | None => -1 end))
  | DRename old new =>
      let s := trim_right new in
      if good_uel s then
        let '(h1, n) := hl_index true h (trim_right old) in
        match n with
        | None => (h1, DNum 2)
        | Some n =>
            let '(h2, m) := hl_index true h1 s in
            match m with
            | Some _ => (h2, DNum 3)
            | None => (hl_rename true h2 n s, DNum 0)
            end
        end
      else (h, DNum ERR_BADUELSTR_)
  | DText n => (h, DLabel (option_map fst (znth (hl_ents h) (n - 1))))
  end.

Fixpoint h_run (h : hlist unit) (ops : list dop) : list dres :=
  match ops with
  | [] => []
  | o :: r => let '(h', d) := h_step h o in d :: h_run h' r
  end.

(** ** Specification: the labels in order of registration *)

Fixpoint position (l : list str) (s : str) (n : Z) : option Z :=
  match l with
  | [] => None
  | t :: r => if str_eqb (upper t) (upper s) then Some n else position r s (n + 1)
  end.

Fixpoint replace_at (l : list str) (n : nat) (s : str) : list str :=
  match l, n with
  | [], _ => []
  | _ :: r, O => s :: r
  | t :: r, S k => t :: replace_at r k s
  end.

Definition d_step (l : list str) (o : dop) : list str * dres :=
  match o with
  | DAdd s => match position l s 1 with
              | Some n => (l, DNum n)
              | None => (l ++ [s], DNum (zlen l + 1))
              end
  | DFind s => (l, DNum (match position l s 1 with Some n => n | None => -1 end))
  | DRename old new =>
      let s := trim_right new in
      if good_uel s then
        match position l (trim_right old) 1, position l s 1 with
        | None, _ => (l, DNum 2)
        | Some _, Some _ => (l, DNum 3)
        | Some n, None => (replace_at l (Z.to_nat (n - 1)) s, DNum 0)
        end
      else (l, DNum ERR_BADUELSTR_)
  | DText n => (l, DLabel (if n <? 1 then None else nth_error l (Z.to_nat (n - 1))))
  end.

Fixpoint d_run (l : list str) (ops : list dop) : list dres :=
  match ops with
  | [] => []
  | o :: r => let '(l', d) := d_step l o in d :: d_run l' r
  end.

(** ** The hash table behaves like the list *)

Lemma position_shift : forall l s n k, position l s (n + k) = option_map (fun m => m + k) (position l s n).
Proof.
  induction l as [| t l IH]; intros s n k; cbn [position option_map]; [reflexivity|].
  destruct (str_eqb (upper t) (upper s)); cbn [option_map]; [reflexivity|].
  replace (n + k + 1) with (n + 1 + k) by lia. apply IH.
Qed.

Lemma position_None : forall l s n, position l s n = None <->
  forall t, In t l -> same_text true t s = false.
Proof.
  induction l as [| t l IH]; intros s n; cbn [position In].
  - split; [tauto|reflexivity].
  - assert (X : same_text true t s = str_eqb (upper t) (upper s)).
    { destruct (same_text true t s) eqn:A, (str_eqb (upper t) (upper s)) eqn:B; try reflexivity.
      - apply same_text_spec in A. cbn [norm] in A. apply str_eqb_spec in A. congruence.
      - apply str_eqb_spec in B. assert (C : same_text true t s = true) by (apply same_text_spec; exact B). congruence. }
    rewrite <- X. destruct (same_text true t s) eqn:E.
    + split; [discriminate|]. intros H. rewrite H in E by auto. discriminate.
    + rewrite IH. split; [intros H u [->|Hu]; auto|auto].
Qed.

Lemma position_Some : forall l s n m, position l s n = Some m ->
  n <= m < n + zlen l /\ exists t, nth_error l (Z.to_nat (m - n)) = Some t /\ same_text true t s = true.
Proof.
  induction l as [| t l IH]; intros s n m; cbn [position]; [discriminate|].
  rewrite zlen_cons. pose proof (zlen_nonneg l).
  destruct (str_eqb (upper t) (upper s)) eqn:E.
  - intros X. injection X as <-. split; [lia|]. rewrite Z.sub_diag. exists t. split; [reflexivity|].
    apply same_text_spec. apply str_eqb_spec. exact E.
  - intros X. destruct (IH _ _ _ X) as (B & u & N & T). split; [lia|].
    exists u. split; [|exact T]. replace (Z.to_nat (m - n)) with (S (Z.to_nat (m - (n + 1)))) by lia. exact N.
Qed.

(** Looking up in a duplicate-free table. *)
Lemma find_position : forall {T} (l : list (str * T)) s k, distinct true l ->
  option_map (fun n => n + k) (sl_find true l s) = position (map fst l) s k.
Proof.
  intros T l s k D. destruct (position (map fst l) s k) as [m|] eqn:P.
  - destruct (position_Some _ _ _ _ P) as (B & t & N & S).
    rewrite nth_error_map in N. destruct (nth_error l (Z.to_nat (m - k))) as [e|] eqn:E; [|discriminate].
    cbn in N. injection N as <-.
    rewrite (sl_find_unique true l s (m - k) e); [cbn; f_equal; lia|exact D| |exact S].
    unfold znth. destruct (Z.ltb_spec (m - k) 0); [lia|exact E].
  - destruct (sl_find true l s) as [n|] eqn:F; [|reflexivity]. exfalso.
    apply sl_find_Some in F. destruct F as (e & E & S).
    rewrite position_None in P. rewrite (P (fst e)) in S; [discriminate|].
    apply in_map. unfold znth in E. destruct (n <? 0); [discriminate|]. eapply nth_error_In; eassumption.
Qed.

Lemma set_text_replace : forall {T} (l : list (str * T)) n s e, znth l n = Some e ->
  map fst (set_text l n s) = replace_at (map fst l) (Z.to_nat n) s.
Proof.
  intros T l n s e E. unfold set_text. rewrite E. pose proof (znth_Some _ _ _ E).
  unfold zset, znth in *. destruct (Z.ltb_spec n 0); [lia|]. clear H H0.
  revert l E. induction (Z.to_nat n) as [| k IH]; intros [| a l] E; cbn [nth_error] in E; try discriminate.
  - reflexivity.
  - cbn [set_nth map replace_at]. f_equal. apply IH. exact E.
Qed.

Definition dict_rel (h : hlist unit) (l : list str) : Prop :=
  hl_ok true h /\ distinct true (hl_ents h) /\ map fst (hl_ents h) = l.

Lemma step_rel : forall h l o, dict_rel h l ->
  dict_rel (fst (h_step h o)) (fst (d_step l o)) /\ snd (h_step h o) = snd (d_step l o).
Proof.
  intros h l o (OK & D & E). destruct o as [s|s|old new|n]; cbn [h_step d_step].
  - pose proof (hl_add_correct true h s tt OK D) as (A & B & C).
    destruct (hl_add true h s tt) as [h' n]. cbn [fst snd] in *.
    unfold sl_add in C. rewrite <- E, <- find_position by exact D.
    destruct (sl_find true (hl_ents h) s) as [m|]; injection C as C1 C2; cbn [option_map fst snd].
    + split; [|f_equal; lia]. unfold dict_rel. rewrite C1. rewrite C1 in B. auto.
    + split; [|f_equal; unfold zlen in *; rewrite map_length; lia].
      split; [exact A|]. split; [exact B|]. rewrite C1, map_app. reflexivity.
  - pose proof (hl_index_correct true h s OK D) as (A & B & C).
    destruct (hl_index true h s) as [h' n]. cbn [fst snd] in *.
    split; [unfold dict_rel; rewrite B; auto|].
    rewrite <- E, <- find_position by exact D. rewrite <- C. destruct n; reflexivity.
  - destruct (good_uel (trim_right new)); cbn [fst snd]; [|split; [unfold dict_rel; auto|reflexivity]].
    pose proof (hl_index_correct true h (trim_right old) OK D) as (A & B & C).
    destruct (hl_index true h (trim_right old)) as [h1 n1]. cbn [fst snd] in *.
    rewrite <- E, <- !find_position by exact D. rewrite <- C.
    destruct n1 as [n|]; cbn [option_map fst snd]; [|split; [unfold dict_rel; rewrite B; auto|reflexivity]].
    assert (D1 : distinct true (hl_ents h1)) by (rewrite B; exact D).
    pose proof (hl_index_correct true h1 (trim_right new) A D1) as (A2 & B2 & C2).
    destruct (hl_index true h1 (trim_right new)) as [h2 m]. cbn [fst snd] in *.
    rewrite B in C2. rewrite <- C2.
    destruct m as [m|]; cbn [option_map fst snd].
    + split; [unfold dict_rel; rewrite B2, B; auto|reflexivity].
    + symmetry in C, C2. apply sl_find_Some in C. destruct C as (e & Ee & Es).
      assert (D2 : distinct true (hl_ents h2)) by (rewrite B2; exact D1).
      pose proof (hl_rename_correct true h2 n (trim_right new) e A2 D2) as R.
      rewrite B2, B in R. specialize (R Ee).
      destruct R as (R1 & R2 & R3).
      { intros i e' Hi He'. destruct (same_text true (fst e') (trim_right new)) eqn:Q; [|reflexivity].
        rewrite (sl_find_unique true _ _ i e' D He' Q) in C2. discriminate. }
      split; [|reflexivity]. split; [exact R1|]. split; [exact R2|]. rewrite R3.
      replace (Z.to_nat (n + 1 - 1)) with (Z.to_nat n) by lia. eapply set_text_replace. exact Ee.
  - split; [unfold dict_rel; auto|]. cbn [snd]. f_equal. rewrite <- E. unfold znth.
    destruct (Z.ltb_spec (n - 1) 0), (Z.ltb_spec n 1); try lia; [reflexivity|].
    rewrite nth_error_map. reflexivity.
Qed.

Lemma run_rel : forall ops h l, dict_rel h l -> h_run h ops = d_run l ops.
Proof.
  induction ops as [| o ops IH]; intros h l R; cbn [h_run d_run]; [reflexivity|].
  destruct (step_rel h l o R) as (R' & E). destruct (h_step h o) as [h' d]. destruct (d_step l o) as [l' d'].
  cbn [fst snd] in *. subst. f_equal. apply IH. exact R'.
Qed.

Lemma new_rel : dict_rel hl_new [].
Proof.
  split; [exact I|]. split; [|reflexivity]. intros i j a b Ha. unfold znth in Ha. cbn in Ha.
  destruct (i <? 0); [discriminate|]. destruct (Z.to_nat i); discriminate.
Qed.
