(** * C61: the tables that gdxdump writes with one column for each label of the last index *)

From Coq Require Import String Permutation Sorted.
From Verif Require Import Base Prim Values Records LinkedData StrHash IntMap Strings AStream BufStream State
  FileImage ApiCore ApiFile ApiWrite ApiRead Api FileFacts BlockFacts StreamFacts OpenFacts DicInv WriteInv WriteSteps Journal WriteCalls WriteTrace
  Footprint SessInv FileFlow Sessions Vocab PropErr Reopen ReadFacts ReadRecs ReadLoops Cases PropNames PropMeta Segment PropStruct PropTexts
  LabelFacts Contents Wrote PropLabels Readers PropRead Dump PropDump.
From Verif Require PropMap.
Open Scope Z_scope.
Open Scope list_scope.

(** ** Specification *)

(** The level of a record; for a set, that it is there. *)
Definition cell_text (z : zlib) (num : Z -> str) (o : dopts) (st : gst) (typ : Z) (r : Z * list Z * list Z) (t : str) : Prop :=
  (typ = dt_set /\ t = s2z "Y") \/ (typ <> dt_set /\ value_text z num o st (nth 0 (snd r) 0) t).
(** The last index of a record, and those before it. *)
Definition last_key (r : Z * list Z * list Z) : Z := last (snd (fst r)) 0.
Definition first_keys (r : Z * list Z * list Z) : list Z := removelast (snd (fst r)).
(** What stands in the column [k] of a line for the records [g]: the record with that last
    index, if there is one. *)
Definition column_cell (z : zlib) (num : Z -> str) (o : dopts) (st : gst) (typ : Z) (g : list (Z * list Z * list Z)) (k : Z) (t : str) : Prop :=
  (exists r, In r g /\ last_key r = k /\ cell_text z num o st typ r t) \/ ((forall r, In r g -> last_key r <> k) /\ t = []).
(** A line: the labels of the indices [p] but the last, and the columns. *)
Definition line_of (z : zlib) (num : Z -> str) (o : dopts) (st : gst) (typ : Z) (cols : list Z) (pg : list Z * list (Z * list Z * list Z)) (row : list str) : Prop :=
  exists ls cs, row = ls ++ cs /\ Forall2 (shown_label z st) (fst pg) ls /\ Forall2 (column_cell z num o st typ (snd pg)) cols cs.

(** ** The order of the records *)

Lemma change_last : forall m a b, length a = S m -> length b = S m -> lex_lt a b ->
  if change_at a b <? Z.of_nat (S m) then lex_lt (removelast a) (removelast b) else removelast a = removelast b /\ last a 0 < last b 0.
Proof.
  induction m as [|m IH]; intros [|x a] [|y b] LA LB L; try discriminate.
  - destruct a; [|discriminate]. destruct b; [|discriminate]. cbn [change_at] in *. cbn in L. destruct (Z.eqb_spec y x) as [->|N].
    + exfalso. destruct L as [L|[_ []]]. lia.
    + change (1 <? Z.of_nat 1) with false. cbv iota. split; [reflexivity|]. cbn. destruct L as [L|[_ []]]. exact L.
  - injection LA as LA. injection LB as LB. destruct a as [|x2 a]; [discriminate|]. destruct b as [|y2 b]; [discriminate|].
    change (removelast (x :: x2 :: a)) with (x :: removelast (x2 :: a)). change (removelast (y :: y2 :: b)) with (y :: removelast (y2 :: b)).
    change (last (x :: x2 :: a) 0) with (last (x2 :: a) 0). change (last (y :: y2 :: b) 0) with (last (y2 :: b) 0).
    change (change_at (x :: x2 :: a) (y :: y2 :: b)) with (if y =? x then (if change_at (x2 :: a) (y2 :: b) =? 0 then 0 else change_at (x2 :: a) (y2 :: b) + 1) else 1).
    change (lex_lt (x :: x2 :: a) (y :: y2 :: b)) with (x < y \/ (x = y /\ lex_lt (x2 :: a) (y2 :: b))) in L. destruct (Z.eqb_spec y x) as [->|N].
    + destruct L as [L|[_ L]]; [lia|]. specialize (IH _ _ LA LB L). destruct (change_at_spec (x2 :: a) (y2 :: b)) as [[_ E]|FD]; [rewrite LA, LB; reflexivity| |].
      * exfalso. rewrite E in L. exact (lex_lt_irrefl _ L).
      * set (c := change_at (x2 :: a) (y2 :: b)) in *. assert (C1 : 1 <= c) by (destruct FD; lia). destruct (Z.eqb_spec c 0); [lia|].
        replace (c + 1 <? Z.of_nat (S (S m))) with (c <? Z.of_nat (S m)) by (apply eq_true_iff_eq; rewrite !Z.ltb_lt; lia).
        destruct (c <? Z.of_nat (S m)); [right; split; [reflexivity|exact IH]|]. destruct IH as [-> LT]. split; [reflexivity|exact LT].
    + destruct (Z.ltb_spec 1 (Z.of_nat (S (S m)))); [|lia]. left. destruct L as [L|[E _]]; [exact L|symmetry in E; contradiction].
Qed.
(** The records after one with the indices [p] and [c]. *)
Fixpoint grouped (dim : Z) (cols : list Z) (p : list Z) (c : Z) (l : list (Z * list Z * list Z)) : Prop :=
  match l with
  | [] => True
  | x :: r => In (last_key x) cols /\ (if fst (fst x) <? dim then lex_lt p (first_keys x) else p = first_keys x /\ c < last_key x) /\ grouped dim cols (first_keys x) (last_key x) r
  end.
Lemma as_read_grouped : forall f m cols recs prev, Forall (good_rec (S m)) recs -> StronglySorted lex_lt (prev :: List.map fst recs) -> length prev = S m ->
  (forall r, In r (as_read f (Some prev) recs) -> In (last_key r) cols) -> grouped (Z.of_nat (S m)) cols (removelast prev) (last prev 0) (as_read f (Some prev) recs).
Proof.
  intros f m cols. induction recs as [|[k v] recs IH]; intros prev G SS LP C; cbn [as_read grouped]; [exact Logic.I|]. cbn [List.map fst] in SS. inversion G as [|? ? [LK _] G']; subst. cbn [fst] in LK. inversion SS as [|? ? S2 F]; subst.
  split; [apply C; left; reflexivity|]. split; [|apply IH; [assumption|exact S2|exact LK|intros r R; apply C; right; exact R]].
  cbn [fst snd dim_frst]. unfold first_keys, last_key. cbn [fst snd]. apply (change_last m prev k LP LK). apply (Forall_inv F).
Qed.

(** ** The columns *)

Section Cols.
Context (z : zlib).
Lemma mark_read : forall st l s e, gives z st l s e -> forall fuel cols, (length l < fuel)%nat -> (forall r, In r l -> 1 <= last_key r <= zlen cols) ->
  exists marks, csv_mark z fuel cols s = Done (marks, e) /\ zlen marks = zlen cols /\
    forall i, znth marks i = Some true <-> znth cols i = Some true \/ exists r, In r l /\ last_key r = i + 1.
Proof.
  intros st l s e G. induction G as [s e X A M W|s s1 x l e X A G IH]; intros fuel cols FU B; (destruct fuel as [|fuel]; [cbn [length] in FU; lia|]); cbn [csv_mark]; rewrite X.
  - cbn [obind ret r_code]. change (0 =? 0) with true. cbv iota. exists cols. split; [reflexivity|]. split; [reflexivity|]. intros i. split; [left; assumption|]. intros [H|(r & [] & _)]. exact H.
  - destruct x as [[af ks] vals]. unfold raw_resp, ret_iv. cbn [obind r_code r_ints r_vals tl fst snd]. change (1 =? 0) with false. cbv iota zeta.
    pose proof (B _ (or_introl eq_refl)) as BX. unfold last_key in BX. cbn [fst snd] in BX. set (i := last ks 0) in *.
    destruct (znth_exists cols (i - 1) ltac:(lia)) as (b & ->).
    assert (ZL : zlen (zset (i - 1) true cols) = zlen cols) by (apply zset_length).
    destruct (IH fuel (zset (i - 1) true cols) ltac:(cbn [length] in FU; lia) ltac:(intros r R; rewrite ZL; apply B; right; exact R)) as (marks & E & L & S1). exists marks. split; [exact E|]. split; [rewrite L; exact ZL|].
    intros j. rewrite S1. destruct (Z.eq_dec j (i - 1)) as [->|NJ].
    + rewrite znth_zset_eq by lia. split; [intros _|intros _; left; reflexivity]. right. exists (af, ks, vals). split; [left; reflexivity|]. unfold last_key. cbn [fst snd]. fold i. lia.
    + rewrite znth_zset_neq by lia. split; (intros [H|(r & R & K)]; [left; exact H|right]).
      * exists r. split; [right; exact R|exact K].
      * exists r. split; [|exact K]. destruct R as [<-|R]; [|exact R]. exfalso. unfold last_key in K. cbn [fst snd] in K. fold i in K. lia.
Qed.
End Cols.
Lemma uels_spec : forall marks i, (forall k, In k (csv_uels marks i) <-> i <= k /\ znth marks (k - i) = Some true) /\ StronglySorted Z.lt (csv_uels marks i).
Proof.
  induction marks as [|b marks IH]; intros i; cbn [csv_uels].
  - split; [|constructor]. intros k. split; [intros []|]. intros [_ H]. rewrite znth_nil in H. discriminate H.
  - destruct (IH (i + 1)) as [I1 I2]. assert (T : forall k, i + 1 <= k -> znth (b :: marks) (k - i) = znth marks (k - (i + 1))) by (intros k K; change (b :: marks) with ([b] ++ marks); rewrite znth_app_r by (change (zlen [b]) with 1; lia); f_equal; change (zlen [b]) with 1; lia).
    assert (Z0 : znth (b :: marks) (i - i) = Some b) by (rewrite Z.sub_diag; reflexivity).
    split.
    + intros k. rewrite in_app_iff, I1. split.
      * intros [H|[L H]]; [destruct b; [|destruct H]; destruct H as [<-|[]]; split; [lia|exact Z0]|]. split; [lia|]. rewrite T by exact L. exact H.
      * intros [L H]. destruct (Z.eq_dec k i) as [->|N]; [left; rewrite Z0 in H; injection H as ->; left; reflexivity|right]. split; [lia|]. rewrite <- T by lia. exact H.
    + destruct b; cbn [app]; [|exact I2]. constructor; [exact I2|]. apply Forall_forall. intros k K. apply I1 in K. lia.
Qed.

(** ** One line *)

Lemma sorted_split : forall a (c : Z) b, StronglySorted Z.lt (a ++ c :: b) -> Forall (fun k => k < c) a /\ Forall (fun k => c < k) b.
Proof.
  induction a as [|x a IH]; intros c b SS; cbn [app] in SS; inversion SS as [|? ? S2 F]; subst.
  - split; [constructor|exact F].
  - destruct (IH _ _ S2) as [A B]. split; [|exact B]. constructor; [|exact A]. rewrite Forall_forall in F. apply F. apply in_or_app. right. left. reflexivity.
Qed.
Lemma sorted_tail : forall a b, StronglySorted Z.lt (a ++ b) -> StronglySorted Z.lt b.
Proof. induction a as [|x a IH]; intros b SS; [exact SS|]. cbn [app] in SS. inversion SS; subst. apply IH. assumption. Qed.
Lemma concat_blanks : forall (d : Z) n, concat (List.map (cons d) (repeat [] n)) = repeat d n.
Proof. intros d n. induction n as [|n IH]; [reflexivity|]. cbn [repeat List.map concat app]. rewrite IH. reflexivity. Qed.
Lemma repeat_map : forall A B (f : A -> B) x n, repeat (f x) n = List.map f (repeat x n).
Proof. intros A B f x n. induction n as [|n IH]; [reflexivity|]. cbn. rewrite IH. reflexivity. Qed.

Section Row.
Context (z : zlib) (num : Z -> str) (o : dopts) (DL : delimiter (o_delim o)).
Notation d := (o_delim o).

Lemma seek_ok : forall gap fuel done c after, Forall (fun k => k < c) gap -> (length gap < fuel)%nat ->
  csv_seek fuel o (done ++ gap ++ c :: after) c (zlen done - 1) = Done (repeat d (length gap), zlen done + zlen gap).
Proof.
  induction gap as [|g gap IH]; intros fuel done c after F L; (destruct fuel as [|fuel]; [lia|]); cbn [csv_seek]; rewrite Z.sub_add.
  - cbn [app]. rewrite znth_middle. destruct (Z.ltb_spec (zlen done - 1) (zlen (done ++ c :: after))) as [_|H]; [|rewrite zlen_app in H; unfold zlen in H; cbn [length] in H; lia].
    rewrite Z.leb_refl. change (zlen (@nil Z)) with 0. rewrite Z.add_0_r. reflexivity.
  - inversion F as [|? ? G F']; subst. cbn [app]. rewrite znth_middle. destruct (Z.ltb_spec (zlen done - 1) (zlen (done ++ g :: gap ++ c :: after))) as [_|H]; [|rewrite zlen_app in H; unfold zlen in H; cbn [length] in H; lia].
    destruct (Z.leb_spec c g); [lia|]. replace (done ++ g :: gap ++ c :: after) with ((done ++ [g]) ++ gap ++ c :: after) by (rewrite <- app_assoc; reflexivity).
    replace (zlen done) with (zlen (done ++ [g]) - 1) at 1 by (rewrite zlen_app; change (zlen [g]) with 1; lia). rewrite IH by (assumption || (cbn [length] in L; lia)). cbn [obind length repeat]. rewrite zlen_app. change (zlen [g]) with 1.
    unfold zlen. cbn [length]. do 2 f_equal. lia.
Qed.

(** The level of a record can be shown. *)
Definition level_shows (st : gst) (typ : Z) (r : Z * list Z * list Z) : Prop := typ <> dt_set -> exists t, value_text z num o st (nth 0 (snd r) 0) t /\ clean d t.

Context (st : gst) (dim typ : Z) (cols : list Z) (NA : typ <> dt_alias) (SC : StronglySorted Z.lt cols).
Lemma cell_written : forall s r, alike st s -> level_shows st typ r ->
  exists t, (if is_setlike typ then Done (s2z "Y") else wr_val z num o (nth 0 (snd r) 0) s) = Done t /\ cell_text z num o st typ r t /\ clean d t.
Proof.
  intros s r A LS. rewrite (dim_setlike _ NA). destruct (Z.eqb_spec typ dt_set) as [E|N].
  - exists (s2z "Y"). split; [reflexivity|]. split; [left; split; [exact E|reflexivity]|]. intros c I. cbn in I. destruct I as [<-|[]]. unfold delimiter in DL. lia.
  - destruct (LS N) as (t & V & C). exists t. rewrite (alike_val _ _ _ _ _ _ A), (value_written _ _ _ _ _ _ V). split; [reflexivity|]. split; [right; split; assumption|exact C].
Qed.
Lemma cells_blank : forall g ks, (forall r k, In r g -> In k ks -> last_key r <> k) -> Forall2 (column_cell z num o st typ g) ks (repeat [] (length ks)).
Proof.
  intros g ks. induction ks as [|k ks IH]; intros H; [constructor|]. cbn [length repeat]. constructor; [right; split; [|reflexivity]; intros r R; apply H; [exact R|left; reflexivity]|].
  apply IH. intros r j R J. apply H; [exact R|right; exact J].
Qed.
Lemma blank_clean : forall n, Forall (clean d) (repeat [] n).
Proof. intros n. apply Forall_forall. intros t T. apply repeat_spec in T. subst. intros c []. Qed.
Lemma cells_more : forall x g ks cs, (forall k, In k ks -> last_key x <> k) -> Forall2 (column_cell z num o st typ g) ks cs -> Forall2 (column_cell z num o st typ (x :: g)) ks cs.
Proof.
  intros x g ks cs H F. induction F as [|k t ks cs C F IH]; constructor; [|apply IH; intros j J; apply H; right; exact J].
  destruct C as [(r & R & K & T)|[N E]]; [left; exists r; split; [right; exact R|split; assumption]|right; split; [|exact E]]. intros r [<-|R]; [apply H; left; reflexivity|apply N; exact R].
Qed.

Definition goes_on (p : list Z) (rest : list (Z * list Z * list Z)) (next : option (list Z * list Z)) (s2 e : gst) : Prop :=
  match rest with
  | [] => next = None /\ s2 = e
  | y :: rest' => next = Some (snd (fst y), snd y) /\ gives z st rest' s2 e /\ alike st s2 /\ lex_lt p (first_keys y) /\ In (last_key y) cols /\ grouped dim cols (first_keys y) (last_key y) rest'
  end.
Lemma row_read : forall l s e, gives z st l s e -> forall fuel x done rem, (length l < fuel)%nat -> alike st s -> cols = done ++ rem -> In (last_key x) rem ->
  grouped dim cols (first_keys x) (last_key x) l -> Forall (level_shows st typ) (x :: l) ->
  exists g rest s2 next cells, l = g ++ rest /\ csv_row z num fuel o dim typ cols (snd (fst x)) (snd x) (zlen done - 1) s = Done (concat (List.map (cons d) cells), next, s2) /\
    Forall2 (column_cell z num o st typ (x :: g)) rem cells /\ Forall (clean d) cells /\ Forall (fun r => first_keys r = first_keys x /\ last_key x < last_key r) g /\ goes_on (first_keys x) rest next s2 e.
Proof.
  intros l s e G. induction G as [s e X A M W|s s1 y l e X A G IH]; intros fuel x done rem FU AS CE IN GR LS; (destruct fuel as [|fuel]; [cbn [length] in FU; lia|]).
  all: destruct (in_split _ _ IN) as (gap & after & ->); pose proof SC as SC'; rewrite CE in SC'; pose proof (sorted_tail _ _ SC') as SR; destruct (sorted_split _ _ _ SR) as [FG FR]; cbn [csv_row]; rewrite CE; fold (last_key x).
  all: rewrite (seek_ok gap (S (length (done ++ gap ++ last_key x :: after))) done (last_key x) after FG) by (rewrite !app_length; lia); cbn [obind].
  all: replace (znth (done ++ gap ++ last_key x :: after) (zlen done + zlen gap)) with (Some (last_key x)) by (rewrite app_assoc, <- zlen_app, znth_middle; reflexivity); rewrite Z.eqb_refl.
  all: destruct (cell_written s x AS (Forall_inv LS)) as (t & -> & CT & CC); cbn [obind]; rewrite X.
  all: assert (TAIL : zlen (done ++ gap ++ last_key x :: after) - 1 - (zlen done + zlen gap) = zlen after) by (rewrite !zlen_app; unfold zlen; cbn [length]; lia).
  all: assert (XG : forall r k, In r [x] -> In k gap -> last_key r <> k) by (intros r k [<-|[]] K; rewrite Forall_forall in FG; specialize (FG k K); lia).
  all: assert (XA : forall r k, In r [x] -> In k after -> last_key r <> k) by (intros r k [<-|[]] K; rewrite Forall_forall in FR; specialize (FR k K); lia).
  all: assert (ALONE : Forall2 (column_cell z num o st typ [x]) (gap ++ last_key x :: after) (repeat [] (length gap) ++ t :: repeat [] (length after)))
    by (apply Forall2_app; [apply cells_blank; exact XG|]; constructor; [left; exists x; split; [left; reflexivity|split; [reflexivity|exact CT]]|apply cells_blank; exact XA]).
  all: assert (ACL : Forall (clean d) (repeat [] (length gap) ++ t :: repeat [] (length after))) by (apply Forall_app; split; [apply blank_clean|]; constructor; [exact CC|apply blank_clean]).
  all: assert (ATX : (repeat d (length gap) ++ d :: t) ++ repeat d (length after) = concat (List.map (cons d) (repeat [] (length gap) ++ t :: repeat [] (length after))))
    by (rewrite map_app, concat_app, concat_blanks; cbn [List.map concat]; rewrite concat_blanks, <- app_assoc; reflexivity).
  - cbn [ret obind r_code]. change (0 =? 0) with true. cbv iota zeta. rewrite TAIL. replace (Z.to_nat (zlen after)) with (length after) by (unfold zlen; lia). rewrite ATX.
    exists [], [], e, None, (repeat [] (length gap) ++ t :: repeat [] (length after)). split; [reflexivity|]. split; [reflexivity|]. split; [exact ALONE|]. split; [exact ACL|]. split; [constructor|]. split; reflexivity.
  - destruct GR as (IY & GY & GR). cbn [raw_resp ret_iv obind r_code r_ints r_vals hd tl]. unfold raw_resp, ret_iv. cbn [obind r_code r_ints r_vals hd tl]. change (1 =? 0) with false. cbv iota zeta. destruct (fst (fst y) <? dim) eqn:AF.
    + rewrite TAIL. replace (Z.to_nat (zlen after)) with (length after) by (unfold zlen; lia). rewrite ATX.
      exists [], (y :: l), s1, (Some (snd (fst y), snd y)), (repeat [] (length gap) ++ t :: repeat [] (length after)). split; [reflexivity|]. split; [reflexivity|]. split; [exact ALONE|]. split; [exact ACL|]. split; [constructor|].
      split; [reflexivity|]. split; [exact G|]. split; [exact A|]. split; [exact GY|]. split; [exact IY|exact GR].
    + destruct GY as [PE LT]. assert (CE2 : cols = (done ++ gap ++ [last_key x]) ++ after) by (rewrite CE, <- !app_assoc; reflexivity).
      assert (IA : In (last_key y) after).
      { rewrite CE2 in IY. apply in_app_or in IY. destruct IY as [I|I]; [exfalso|exact I]. rewrite app_assoc in SC'. destruct (sorted_split _ _ _ SC') as [BE _]. rewrite Forall_forall in BE. rewrite app_assoc in I. apply in_app_or in I. destruct I as [I|[I|[]]]; [specialize (BE _ I)|]; lia. }
      destruct (IH fuel y (done ++ gap ++ [last_key x]) after ltac:(cbn [length] in FU; lia) A CE2 IA GR (Forall_inv_tail LS)) as (g & rest & s2 & next & cells & EL & ER & FC & CLN & FGR & GO).
      replace (zlen (done ++ gap ++ [last_key x]) - 1) with (zlen done + zlen gap) in ER by (rewrite !zlen_app; change (zlen [last_key x]) with 1; lia).
      rewrite <- CE, ER. cbn [obind]. exists (y :: g), rest, s2, next, (repeat [] (length gap) ++ t :: cells).
      assert (FK : Forall (fun r => first_keys r = first_keys x /\ last_key x < last_key r) (y :: g)).
      { constructor; [split; [symmetry; exact PE|exact LT]|]. eapply Forall_impl; [|exact FGR]. cbv beta. intros r [R1 R2]. split; [congruence|lia]. }
      split; [rewrite EL; reflexivity|]. split; [rewrite map_app, concat_app, concat_blanks; cbn [List.map concat]; rewrite <- app_assoc; reflexivity|]. split; [|split; [|split; [exact FK|rewrite PE; exact GO]]].
      * apply Forall2_app.
        -- apply cells_blank. intros r k R K. rewrite Forall_forall in FG. specialize (FG k K). destruct R as [<-|R]; [lia|]. rewrite Forall_forall in FK. destruct (FK r R). lia.
        -- constructor; [left; exists x; split; [left; reflexivity|split; [reflexivity|exact CT]]|]. apply cells_more; [|exact FC]. intros k K. rewrite Forall_forall in FR. specialize (FR k K). lia.
      * apply Forall_app. split; [apply blank_clean|]. constructor; assumption.
Qed.
End Row.

(** ** All lines *)

Lemma join_cells : forall d ls cs, ls <> [] -> join d (ls ++ cs) = join d ls ++ concat (List.map (cons d) cs).
Proof.
  intros d ls cs NE. revert ls NE. induction cs as [|c cs IH]; intros ls NE; [cbn [List.map concat]; rewrite !app_nil_r; reflexivity|].
  replace (ls ++ c :: cs) with ((ls ++ [c]) ++ cs) by (rewrite <- app_assoc; reflexivity). rewrite IH by (destruct ls; discriminate). rewrite join_app by (assumption || discriminate). cbn [join List.map concat]. rewrite <- app_assoc. reflexivity.
Qed.

Section Rows.
Context (z : zlib) (num : Z -> str) (o : dopts) (DL : delimiter (o_delim o)).
Notation d := (o_delim o).
Context (st : gst) (dim typ : Z) (cols : list Z) (NA : typ <> dt_alias) (SC : StronglySorted Z.lt cols) (LI : labels_inv (g_dic st)).

Definition same_first (pg : list Z * list (Z * list Z * list Z)) : Prop := snd pg <> [] /\ Forall (fun r => first_keys r = fst pg) (snd pg).
Lemma rows_read : forall fuel l s e x, gives z st l s e -> alike st s -> (length l < fuel)%nat -> In (last_key x) cols -> grouped dim cols (first_keys x) (last_key x) l ->
  Forall (level_shows z num o st typ) (x :: l) -> Forall (fun r => first_keys r <> []) (x :: l) ->
  exists text groups rows, csv_rows z num fuel o dim typ cols (Some (snd (fst x), snd x)) s = Done (text, e) /\ reads_as o text rows /\
    concat (List.map snd groups) = x :: l /\ Forall same_first groups /\ Forall2 (line_of z num o st typ cols) groups rows /\ Sorted lex_lt (List.map fst groups) /\
    exists gs tl, groups = (first_keys x, gs) :: tl.
Proof.
  induction fuel as [|fuel IH]; intros l s e x G AS FU IN GR LS FN; [lia|]. cbn [csv_rows].
  rewrite (alike_labels z o _ _ _ AS). fold (first_keys x). destruct (label_fields z num o DL st (first_keys x) LI) as (ws & ls & -> & FL & SL). cbn [obind].
  destruct (row_read z num o DL st dim typ cols NA SC l s e G (S fuel) x [] cols FU AS eq_refl IN GR LS) as (g & rest & s2 & next & cells & EL & ER & FC & CLN & FGR & GO).
  change (zlen (@nil Z) - 1) with (-1) in ER. rewrite ER. cbn [obind].
  assert (NW : ws <> []) by (intros ->; inversion FL; subst; inversion SL as [E0|]; apply (Forall_inv FN); symmetry; assumption).
  assert (LINE : reads_as o (join d ws ++ concat (List.map (cons d) cells) ++ [ch_eol]) [ls ++ cells]).
  { rewrite app_assoc, <- join_cells by exact NW. apply (reads_as_line o (ws ++ cells) (ls ++ cells)); [apply Forall2_app; [exact FL|apply (clean_fields o DL); exact CLN]|]. destruct ws; [contradiction|discriminate]. }
  assert (LO : line_of z num o st typ cols (first_keys x, x :: g) (ls ++ cells)) by (exists ls, cells; auto).
  assert (SF : same_first (first_keys x, x :: g)).
  { split; [discriminate|]. constructor; [reflexivity|]. eapply Forall_impl; [|exact FGR]. intros r [R _]. exact R. }
  destruct rest as [|y rest].
  - destruct GO as [-> ->]. assert (NX : csv_rows z num fuel o dim typ cols None e = Done ([], e)) by (destruct fuel; reflexivity). rewrite NX. cbn [obind].
    exists (join d ws ++ concat (List.map (cons d) cells) ++ [ch_eol] ++ []), [(first_keys x, x :: g)], [ls ++ cells]. split; [reflexivity|]. split; [rewrite app_nil_r; exact LINE|].
    split; [cbn [List.map concat snd]; rewrite app_nil_r, EL, app_nil_r; reflexivity|]. split; [constructor; [exact SF|constructor]|]. split; [constructor; [exact LO|constructor]|]. split; [repeat constructor|]. eexists. eexists. reflexivity.
  - destruct GO as (-> & G2 & A2 & LT & IY & GR2). rewrite EL in LS, FN, FU. rewrite app_length in FU. cbn [length] in FU.
    assert (LS2 : Forall (level_shows z num o st typ) (y :: rest)) by (apply Forall_inv_tail in LS; apply Forall_app in LS; apply LS).
    assert (FN2 : Forall (fun r => first_keys r <> []) (y :: rest)) by (apply Forall_inv_tail in FN; apply Forall_app in FN; apply FN).
    destruct (IH rest s2 e y G2 A2 ltac:(lia) IY GR2 LS2 FN2) as (text & groups & rows & ET & RT & CG & SG & F2 & SO & (gs & tl & EG)). rewrite ET. cbn [obind].
    exists (join d ws ++ concat (List.map (cons d) cells) ++ [ch_eol] ++ text), ((first_keys x, x :: g) :: groups), ([ls ++ cells] ++ rows). split; [reflexivity|].
    split; [replace (join d ws ++ concat (List.map (cons d) cells) ++ [ch_eol] ++ text) with ((join d ws ++ concat (List.map (cons d) cells) ++ [ch_eol]) ++ text) by (rewrite <- !app_assoc; reflexivity); apply reads_as_app; assumption|].
    split; [cbn [List.map concat snd]; rewrite CG, EL; reflexivity|]. split; [constructor; assumption|]. split; [constructor; assumption|]. split; [|eexists; eexists; reflexivity].
    cbn [List.map fst]. constructor; [exact SO|]. rewrite EG. cbn [List.map fst]. constructor. exact LT.
Qed.
Lemma cheader_read : forall s names ws heads, alike st s -> o_header o = None -> omap (fun k => uel_csv z o k st) cols = Done ws -> Forall2 (field d) ws heads -> ws <> [] ->
  Forall (fun s : str => zlen s <= 256 /\ forall c, In c s -> 32 <= c) names ->
  exists text, csv_cheader z o names cols s = Done text /\ reads_as o text (if o_hdr o then [removelast names ++ heads] else []).
Proof.
  intros s names ws heads AS OH EW FW NW FN. unfold csv_cheader. rewrite OH. destruct (o_hdr o); [|exists []; split; [reflexivity|apply reads_as_nil]].
  rewrite (alike_labels z o _ _ _ AS), EW. cbn [obind]. eexists. split; [reflexivity|].
  assert (FR : Forall (fun s : str => zlen s <= 256 /\ forall c, In c s -> 32 <= c) (removelast names)).
  { rewrite removelast_firstn_len. apply Forall_forall. intros x X. rewrite Forall_forall in FN. apply FN. rewrite <- (firstn_skipn (pred (length names)) names). apply in_or_app. left. exact X. }
  assert (E : concat (List.map (fun s => qqcsv o s ++ [d]) (removelast names)) ++ join d ws ++ [ch_eol] = join d (List.map (qqcsv o) (removelast names) ++ ws) ++ [10]).
  { rewrite app_assoc. f_equal. generalize (removelast names). induction l as [|a l IH]; [reflexivity|]. cbn [List.map concat app]. rewrite join_cons. rewrite <- app_assoc, IH, <- app_assoc. f_equal.
    destruct (List.map (qqcsv o) l ++ ws) as [|b r] eqn:B; [apply app_eq_nil in B; destruct B; contradiction|reflexivity]. }
  rewrite E. apply reads_as_line; [apply Forall2_app; [apply quoted_fields; assumption|exact FW]|]. intros X. apply app_eq_nil in X. destruct X. contradiction.
Qed.
End Rows.

(** ** The state after a pass *)

Lemma read_done_again : forall z e, g_mode e = fr_init -> w_added (g_wrk e) = 0 -> exists e2, exec z gdxDataReadDone e = Done (ret 1, e2) /\ alike e e2 /\ g_mode e2 = fr_init.
Proof.
  intros z e M W. cbn [exec]. unfold read_done, data_read_done. cbv zeta. change (g_mode (upd_wrk (fun w => set_w_sort None (set_w_cur CNull w)) e)) with (g_mode e). rewrite M. change (negb (mode_in fr_init _)) with false. cbv iota.
  change (w_added (g_wrk (upd_wrk (fun w => set_w_sort None (set_w_cur CNull w)) e))) with (w_added (g_wrk e)). rewrite W. change (0 =? 0) with true. cbv iota. cbn [obind]. eexists. split; [reflexivity|].
  split; [|reflexivity]. split; [reflexivity|]. apply same_dic_refl.
Qed.
Lemma repeat_calls : forall n, Forall (fun c => session_call c = true /\ call_ok c) (repeat gdxDataReadRaw n).
Proof. intros n. apply Forall_forall. intros c C. apply repeat_spec in C. subst. split; [reflexivity|exact Logic.I]. Qed.
Lemma gives_from : forall z a b l s e, alike a b -> gives z b l s e -> gives z a l s e.
Proof. intros z a b l s e AB G. induction G as [s e X A M W|s s1 x l e X A G IH]; [apply gives_end; try assumption; eapply alike_trans; eassumption|]. eapply gives_more; [exact X|eapply alike_trans; eassumption|exact IH]. Qed.
Lemma alike_sees : forall a b wt, alike a b -> sees b wt = sees a wt.
Proof. intros a b wt [E [D _]]. unfold sees. rewrite E, D. reflexivity. Qed.

(** With CDim=Y the table has a column for each label that the last index takes, in the
    order of the label numbers, and a line for each combination of the other indices, in
    their order.  A cell shows the level of the record with these indices (for a set, Y), and
    is empty where there is none. *)
Theorem C61_table : forall z num o st n name dim typ wt recs c doms l fuel ns k,
  wrote z st n dim typ wt recs -> no_numbering z st -> symbol z st n name dim typ -> 2 <= dim ->
  answers z st (gdxSymbolGetDomainX n) (ret_s c doms) -> zlen doms = dim -> Forall name_fits doms ->
  delimiter (o_delim o) -> o_header o = None -> o_cdim o = true -> answers z st gdxSystemInfo (ret_i 1 [ns; k]) ->
  reads_all z st n l -> l <> [] -> (forall r, In r l -> 1 <= last_key r <= k) -> Forall (level_shows z num o st typ) l -> (length l < fuel)%nat ->
  exists text st' names cols heads groups rows, csv_symbol z num fuel o n st = Done (text, st') /\
    read_lines (o_delim o) text = (if o_hdr o then [removelast names ++ heads] else []) ++ rows /\ names_for doms names /\
    StronglySorted Z.lt cols /\ (forall j, In j cols <-> exists r, In r l /\ last_key r = j) /\ Forall2 (shown_label z st) cols heads /\
    concat (List.map snd groups) = l /\ Forall same_first groups /\ StronglySorted lex_lt (List.map fst groups) /\ Forall2 (line_of z num o st typ cols) groups rows.
Proof.
  intros z num o st n name dim typ wt recs c doms l fuel ns k W NN SY D2 (sd & DX) ZD FD DL OH CD (ss0 & SYS) RA NE BD LS FU.
  destruct (wrote_holds _ _ _ _ _ _ _ W) as (H & TB & MO & _). pose proof (no_numbering_env _ _ NN) as NX. assert (SR : some_record dim recs) by (left; lia).
  pose proof (reads_gives _ _ _ _ _ _ _ _ _ _ H TB NX SR MO RA) as EL. destruct (pass _ _ _ _ _ _ _ _ _ H TB NX SR MO) as (r & s1 & e & E1 & G). rewrite <- EL in G.
  pose proof H as (_ & GR & DB & TY & _). assert (NA : typ <> dt_alias) by (unfold dt_alias, dt_equ in *; lia). pose proof (proj1 (wrote_labels _ _ _ _ _ _ _ W)) as LI.
  pose proof SY as (N0 & ss & SI). pose proof (domain_state _ _ _ _ _ _ _ _ SY DX) as ->.
  cbn [exec] in SYS. unfold system_info in SYS. injection SYS as _ KU _.
  (* the columns *)
  assert (KZ : zlen (repeat false (Z.to_nat k)) = k) by (unfold zlen; rewrite repeat_length; subst k; unfold uel_count; rewrite Z2Nat.id; [reflexivity|apply zlen_nonneg]).
  destruct (mark_read z st l s1 e G fuel (repeat false (Z.to_nat k)) FU ltac:(rewrite KZ; exact BD)) as (marks & EM & LM & SM).
  destruct (uels_spec marks 1) as [IU SU]. set (cols := csv_uels marks 1) in *.
  assert (IC : forall j, In j cols <-> exists r, In r l /\ last_key r = j).
  { intros j. rewrite IU, SM. split.
    - intros [_ [F|(x & X & K)]]; [|exists x; split; [exact X|lia]]. exfalso. destruct (znth_Some _ _ _ F) as [F0 F1]. rewrite znth_repeat in F by (rewrite KZ in F1; lia). discriminate F.
    - intros (x & X & K). pose proof (BD x X). split; [lia|]. right. exists x. split; [exact X|lia]. }
  (* the second pass *)
  destruct (gives_alike _ _ _ _ _ G) as (AE & ME & WE). destruct (read_done_again z e ME WE) as (e2 & ED & A2 & M2). pose proof (alike_trans _ _ _ AE A2) as AE2.
  destruct (gives_run _ _ _ _ _ G) as (sl & RL & EE).
  assert (TC : then_calls z (gdxDataReadRawStart n :: repeat gdxDataReadRaw (length l) ++ [gdxDataReadRaw; gdxDataReadDone]) (r :: List.map raw_resp l ++ [ret 0; ret 1]) st e2).
  { split.
    - constructor; [split; [reflexivity|exact Logic.I]|]. apply Forall_app. split; [apply repeat_calls|]. constructor; [split; [reflexivity|exact Logic.I]|]. constructor; [split; [reflexivity|exact Logic.I]|constructor].
    - cbn [run]. rewrite E1. cbn [obind]. rewrite (run_app z _ _ _ _ _ [ret 0; ret 1] e2 RL); [reflexivity|]. cbn [run]. rewrite EE. cbn [obind]. rewrite ED. reflexivity. }
  pose proof (holds_then _ _ _ _ _ _ _ _ _ _ TC H) as H2. destruct (tabs_then _ _ _ _ _ _ _ TC TB) as (t' & TB2).
  assert (NX2 : e_nextacr (g_env e2) <= 0) by (rewrite (proj1 AE2); exact NX).
  destruct (pass _ _ _ _ _ _ _ _ _ H2 TB2 NX2 SR M2) as (r2 & s2 & e3 & E2 & G2). rewrite (alike_sees _ _ wt AE2), <- EL in G2. apply (gives_from _ _ _ _ _ _ AE2) in G2.
  destruct (gives_alike _ _ _ _ _ G2) as (A3 & M3 & W3). destruct (read_done_again z e3 M3 W3) as (e4 & ED4 & _ & _).
  assert (F3 : exists x l' s3, l = x :: l' /\ exec z gdxDataReadRaw s2 = Done (raw_resp x, s3) /\ alike st s3 /\ gives z st l' s3 e3).
  { destruct l as [|x l']; [contradiction|]. inversion G2; subst. exists x, l'. eexists. split; [reflexivity|]. split; [eassumption|]. split; assumption. }
  clear G2. destruct F3 as (x & l' & s3 & EX & XR & AX & G3).
  (* the first line *)
  assert (DS : List.map (fun i => nth i doms []) (seq 0 (Z.to_nat dim)) = doms) by (rewrite <- ZD; apply nth_all).
  assert (LE : (length ([] : list str) + length doms <= 20)%nat) by (unfold zlen in ZD; cbn [length]; lia).
  destruct (columns doms [] [] 1 names_nil ltac:(change (zlen (@nil str)) with 0; lia) LE) as (names & CN & NF). cbn [app] in NF.
  destruct (label_fields z num o DL st cols LI) as (ws & heads & EW & FW & SH).
  assert (NW : ws <> []).
  { intros ->. apply omap_length in EW. assert (IX : In (last_key x) cols) by (apply IC; exists x; split; [rewrite EX; left; reflexivity|reflexivity]). destruct cols; [destruct IX|discriminate EW]. }
  destruct (cheader_read z o DL st cols e2 names ws heads AE2 OH EW FW NW (names_fit _ _ NF FD)) as (hdr & EH & RH).
  (* the lines *)
  set (m := pred (Z.to_nat dim)). assert (MD : Z.to_nat dim = S m) by (unfold m; lia). assert (DM : Z.of_nat (S m) = dim) by lia.
  assert (KL : Forall (fun r => length (snd (fst r)) = S m) l).
  { rewrite EL. clear - GR MD. rewrite MD in GR. generalize (@None (list Z)). induction GR as [|[k v] recs [GK _] GR IH]; intros prev; cbn [as_read]; constructor; [exact GK|apply IH]. }
  assert (FNE : Forall (fun r => first_keys r <> []) l).
  { eapply Forall_impl; [|exact KL]. cbv beta. intros [[af ks] vs] KK. unfold first_keys. cbn [fst snd] in *. destruct ks as [|a [|b ks]]; cbn [length] in KK; [lia|unfold m in KK; lia|discriminate]. }
  assert (GD : grouped dim cols (first_keys x) (last_key x) l').
  { destruct recs as [|[k1 v1] recs]; [rewrite EX in EL; discriminate EL|]. rewrite EX in EL. cbn [as_read] in EL. injection EL as EX1 EL'. rewrite EX1, EL'. unfold first_keys, last_key. cbn [fst snd]. rewrite <- DM.
    rewrite MD in GR. pose proof (Forall_inv GR) as [K1 _]. cbn [fst] in K1. apply as_read_grouped; [exact (Forall_inv_tail GR)| |exact K1|].
    - destruct (PropMap.holds_sorted _ _ _ _ _ _ _ H) as [X|X]; [lia|exact X].
    - intros y Y. apply IC. exists y. split; [rewrite EX; right; rewrite EL'; exact Y|reflexivity]. }
  rewrite EX in LS, FNE, FU. cbn [length] in FU.
  destruct (rows_read z num o DL st dim typ cols NA SU LI fuel l' s3 e3 x G3 AX ltac:(lia) ltac:(apply IC; exists x; split; [rewrite EX; left; reflexivity|reflexivity]) GD LS FNE) as (body & groups & rows & EB & RB & CG & SG & F2 & SO & _).
  exists (hdr ++ body), e4, names, cols, heads, groups, rows. split; [|split; [apply reads_as_all, reads_as_app; assumption|]].
  - unfold csv_symbol. change (exec z gdxSystemInfo st) with (system_info st). unfold system_info. cbn [obind]. rewrite SI. cbn [obind]. rewrite DX. cbn [obind ret_is ret_s ret_i r_ints r_strs nth]. rewrite DS, CN. cbn [obind]. rewrite CD.
    destruct (Z.leb_spec 2 dim); [|lia]. cbn [andb negb]. rewrite E1. cbn [obind]. rewrite KU, EM. cbn [obind]. rewrite ED. cbn [obind]. cbv zeta. fold cols. rewrite EH. cbn [obind]. rewrite E2. cbn [obind]. rewrite XR. unfold raw_resp at 1, ret_iv. cbn [obind r_code r_ints r_vals tl].
    change (1 =? 0) with false. cbv iota. unfold raw_resp, ret_iv. cbn [r_ints r_vals tl]. rewrite EB. cbn [obind]. rewrite ED4. reflexivity.
  - split; [exact NF|]. split; [exact SU|]. split; [exact IC|]. split; [exact SH|]. split; [rewrite EX; exact CG|]. split; [exact SG|]. split; [|exact F2].
    apply Sorted_StronglySorted; [|exact SO]. intros a b c0. apply lex_lt_trans.
Qed.

(** The variable v(Dim1, Dim2) of [rc_read]: columns for the labels a, B and c. *)
Definition tc_opts : dopts := mkDopts 44 true None true true false None (Some (s2z "n/a")) None None None None.
Lemma tc_shows : Forall (level_shows rle_zlib int_str tc_opts rc_read dt_var) rc_raw.
Proof.
  assert (CL : forall t, forallb (fun c => negb ((c =? 44) || (c =? 10) || (c =? 34))) t = true -> clean 44 t).
  { intros t H c I. rewrite forallb_forall in H. specialize (H c I). lia. }
  unfold rc_raw. constructor; [|constructor; [|constructor; [|constructor]]]; intros _; cbn [snd nth];
    first [eexists; split; [apply vt_number; [ans|ans|left; reflexivity]|apply CL; vm_compute; reflexivity]
          |eexists; split; [eapply vt_special; [ans|ans|vm_compute; reflexivity]|apply CL; vm_compute; reflexivity]].
Qed.
Example C61_case : exists text st' names cols heads groups rows, csv_symbol rle_zlib int_str 4 tc_opts 2 rc_read = Done (text, st') /\
  read_lines 44 text = [removelast names ++ heads] ++ rows /\ names_for [s2z "*"; s2z "*"] names /\
  StronglySorted Z.lt cols /\ (forall j, In j cols <-> exists r, In r rc_raw /\ last_key r = j) /\ Forall2 (shown_label rle_zlib rc_read) cols heads /\
  concat (List.map snd groups) = rc_raw /\ Forall same_first groups /\ StronglySorted lex_lt (List.map fst groups) /\ Forall2 (line_of rle_zlib int_str tc_opts rc_read dt_var cols) groups rows.
Proof.
  refine (C61_table rle_zlib int_str tc_opts rc_read 2 (s2z "v") 2 dt_var rc_values rc_records 1 [s2z "*"; s2z "*"] rc_raw 4 3 3
    (wrote_now _ _ _ _ _ _ _ (or_introl rc_wrote)) _ _ _ _ _ _ _ _ _ _ rc_reads _ _ tc_shows _).
  - exists 0. split; [lia|ans].
  - split; [lia|ans].
  - lia.
  - ans.
  - reflexivity.
  - assert (F : name_fits (s2z "*")) by (split; [vm_compute; discriminate|intros c I; cbn in I; destruct I as [<-|[]]; lia]). constructor; [exact F|]. constructor; [exact F|constructor].
  - right. left. reflexivity.
  - reflexivity.
  - reflexivity.
  - ans.
  - discriminate.
  - intros r R. cbn in R. destruct R as [<-|[<-|[<-|[]]]]; vm_compute; split; discriminate.
  - cbn. lia.
Qed.
Example C61_case_text : exists st', csv_symbol rle_zlib (fun _ => s2z "#") 4 tc_opts 2 rc_read = Done
  (List.map (fun c => if c =? 39 then 34 else c) (s2z "'Dim1','a','B','c'" ++ [10] ++ s2z "'a',,#,Undf" ++ [10] ++ s2z "'B',#,," ++ [10]), st').
Proof. ans. Qed.

(** ** C62: what the tables do not show *)

(** The columns cannot always be told apart: neighbours may have the same name. *)
Definition dx_calls : list call :=
  [gdxUELRegisterRawStart; gdxUELRegisterRaw (s2z "a"); gdxUELRegisterRaw (s2z "b"); gdxUELRegisterDone;
   gdxDataWriteRawStart (s2z "p") (s2z "") 2 dt_par 0; gdxDataWriteRaw [1; 2] [dbl_1]; gdxDataWriteRaw [2; 5] [dbl_1]; gdxDataWriteDone; gdxSymbolSetDomainX 1 [s2z "i"; s2z "i"]].
Definition dx_0 : gst := state_of (exec rle_zlib (gdxOpenWriteEx (s2z "d.gdx") (s2z "test") 0) (new_object [])).
Definition dx_st : gst := state_of (run rle_zlib dx_calls dx_0).
Definition dx_closed : gst := state_of (exec rle_zlib gdxClose dx_st).
Definition dx_read : gst := state_of (exec rle_zlib (gdxOpenReadEx (s2z "d.gdx") 0) dx_closed).
Definition dx_opts (cdim : bool) : dopts := mkDopts 44 true None cdim false false None None None None None None.
(** A file that was written, all calls answering 1, and that opens. *)
Definition made (cs : list call) (st : gst) : Prop := exists s0 rs s1 s2, exec rle_zlib (gdxOpenWriteEx (s2z "d.gdx") (s2z "test") 0) (new_object []) = Done (ret_i 1 [0], s0) /\
  run rle_zlib cs s0 = Done (rs, s1) /\ Forall (fun r => r_code r = 1) rs /\ Forall call_ok cs /\ exec rle_zlib gdxClose s1 = Done (ret 0, s2) /\ exec rle_zlib (gdxOpenReadEx (s2z "d.gdx") 0) s2 = Done (ret_i 1 [0], st).
Lemma dx_made : made dx_calls dx_read.
Proof.
  exists dx_0, (List.map (fun _ => ret 1) dx_calls), dx_st, dx_closed. split; [vm_compute; reflexivity|]. split; [vm_compute; reflexivity|]. split; [repeat (constructor; [reflexivity|]); constructor|].
  split; [assert (CO : forallb call_okb dx_calls = true) by (vm_compute; reflexivity); apply Forall_forall; intros c C; apply call_okb_ok; rewrite forallb_forall in CO; apply CO; exact C|]. split; vm_compute; reflexivity.
Qed.
Theorem C62_columns_refuted : exists cs st text e header rows, made cs st /\
  csv_symbol rle_zlib int_str 4 (dx_opts false) 1 st = Done (text, e) /\ read_lines 44 text = header :: rows /\ ~ NoDup header.
Proof.
  exists dx_calls, dx_read. eexists. eexists. eexists. eexists. split; [exact dx_made|]. split; [vm_compute; reflexivity|]. split; [vm_compute; reflexivity|].
  intros ND. inversion ND as [|? ? NI _]; subst. apply NI. left. reflexivity.
Qed.
(** And with CDim=Y an index without a label is outside of the array of the columns. *)
Theorem C62_index_refuted : exists cs st, made cs st /\ csv_symbol rle_zlib int_str 4 (dx_opts true) 1 st = UB.
Proof. exists dx_calls, dx_read. split; [exact dx_made|]. vm_compute. reflexivity. Qed.
(** Names that are not next to each other differ. *)
Theorem C62_columns_partial : forall z num o st n name dim typ wt recs c doms l fuel,
  wrote z st n dim typ wt recs -> some_record dim recs -> no_numbering z st -> symbol z st n name dim typ -> (typ = dt_set -> dim <> 0) ->
  answers z st (gdxSymbolGetDomainX n) (ret_s c doms) -> zlen doms = dim -> Forall name_fits doms ->
  delimiter (o_delim o) -> o_header o = None -> o_hdr o = true -> o_cdim o = false \/ dim < 2 ->
  reads_all z st n l -> Forall (can_show z num o st dim typ) l -> (length l < fuel)%nat ->
  exists text st' header rows, csv_symbol z num fuel o n st = Done (text, st') /\ read_lines (o_delim o) text = header :: rows /\
    forall i j, (i + 1 < j < length doms)%nat -> nth i header [] <> nth j header [].
Proof.
  intros z num o st n name dim typ wt recs c doms l fuel W SR NN SY SD DX ZD FD DL OH HD CD RA CS FU.
  destruct (C60_csv _ num o _ _ _ _ _ _ _ _ _ _ fuel W SR NN SY SD DX ZD FD DL OH CD RA CS FU) as (text & st' & names & vs & rows & E & R & (LN & _ & _ & NF) & _). rewrite HD in R.
  exists text, st', (names ++ vs), rows. split; [exact E|]. split; [exact R|]. intros i j IJ. rewrite !app_nth1 by (rewrite LN; lia). apply NF. exact IJ.
Qed.

Print Assumptions C60_csv.
Print Assumptions C61_table.
Print Assumptions C62_columns_partial.
Print Assumptions C62_columns_refuted.
Print Assumptions C62_index_refuted.
