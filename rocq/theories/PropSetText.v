(** * C67: the list of element texts that gdxdump writes *)

From Coq Require Import String Permutation Sorted.
From Verif Require Import Base Prim Values Records LinkedData StrHash IntMap Strings AStream BufStream State
  FileImage ApiCore ApiFile ApiWrite ApiRead Api FileFacts BlockFacts StreamFacts OpenFacts DicInv WriteInv WriteSteps Journal WriteCalls WriteTrace
  Footprint SessInv FileFlow Sessions Vocab PropErr Reopen ReadFacts ReadRecs ReadLoops Cases PropNames PropMeta Segment PropStruct PropTexts
  LabelFacts Contents Wrote PropLabels Readers PropRead Dump PropDump DumpData PropData DumpList PropList DumpText.
Open Scope Z_scope.
Open Scope list_scope.

(** ** Specification *)

(** The lines of a text; each ends with a line feed. *)
Fixpoint lines_from (cur s : str) : list str :=
  match s with [] => [] | c :: r => if c =? 10 then cur :: lines_from [] r else lines_from (cur ++ [c]) r end.
Definition lines_in (s : str) : list str := lines_from [] s.
(** A line of the table: the number, after blanks, three blanks, and the text between two
    quotation marks. *)
Definition entry (n : Z) (t line : str) : Prop := exists k, line = repeat 32 k ++ int_str n ++ s2z "   " ++ [34] ++ t ++ [34].
(** The table for the texts with the numbers [n], [n + 1], ... *)
Inductive table : Z -> list str -> list str -> Prop :=
| table_end : forall n, table n [] []
| table_line : forall n t ts l ls, entry n t l -> table (n + 1) ts ls -> table n (t :: ts) (l :: ls).

(** ** Proofs *)

Lemma lines_line : forall l cur rest, ~ In 10 l -> lines_from cur (l ++ 10 :: rest) = (cur ++ l) :: lines_from [] rest.
Proof.
  induction l as [|c l IH]; intros cur rest N; cbn [app lines_from].
  - rewrite app_nil_r. reflexivity.
  - destruct (Z.eqb_spec c 10) as [->|NE]; [exfalso; apply N; left; reflexivity|]. rewrite IH by (intros X; apply N; right; exact X). rewrite <- app_assoc. reflexivity.
Qed.
Lemma line_in : forall l rest, ~ In 10 l -> lines_in (l ++ 10 :: rest) = l :: lines_in rest.
Proof. intros l rest N. apply lines_line. exact N. Qed.
Lemma int_no_eol : forall n, 0 <= n -> ~ In 10 (int_str n).
Proof. intros n N I. unfold int_str in I. destruct (Z.ltb_spec n 0); [lia|]. apply digits_chars in I; lia. Qed.

Lemma done_fst : forall {A B} (a c : A) (b d : B), Done (a, b) = Done (c, d) -> c = a.
Proof. intros A B a c b d H. injection H as -> _. reflexivity. Qed.

Section T.
Context (z : zlib).

(** A text exists below the number of texts only. *)
Definition counted (st : gst) (n : Z) : Prop := exists l, d_texts (g_dic st) = Some l /\ zlen l = n.
Lemma has_counted : forall st n i, counted st n -> has_elem_text z i st = Done ((0 <=? i) && (i <? n)).
Proof.
  intros st n i (l & L & N). unfold has_elem_text. cbn [exec]. unfold get_elem_text. rewrite L. destruct (znth l i) as [[t k]|] eqn:E.
  - pose proof (znth_Some _ _ _ E). cbn [obind ret_is r_code]. replace ((0 <=? i) && (i <? n)) with true by lia. reflexivity.
  - cbn [obind ret_is r_code]. replace ((0 <=? i) && (i <? n)) with false; [reflexivity|]. symmetry. apply Bool.not_true_iff_false. intros X. destruct (znth_exists l i) as (x & Y); [lia|congruence].
Qed.
Lemma search_finds : forall st n, counted st n -> forall k lo hi, 0 <= lo -> lo < n -> n <= hi -> hi - lo <= 2 ^ Z.of_nat k -> search z (S k) lo hi st = Done (n - 1).
Proof.
  intros st n C. induction k as [|k IH]; intros lo hi L0 L1 H1 G; cbn [search].
  - change (2 ^ Z.of_nat 0) with 1 in G. destruct (Z.ltb_spec (lo + 1) hi); [lia|]. f_equal. lia.
  - destruct (Z.ltb_spec (lo + 1) hi); [|f_equal; lia]. cbv zeta. rewrite (has_counted _ _ _ C). cbn [obind].
    rewrite Nat2Z.inj_succ, Z.pow_succ_r in G by lia. pose proof (Z.div_mod (hi - lo) 2 ltac:(lia)). pose proof (Z.mod_pos_bound (hi - lo) 2 ltac:(lia)).
    destruct (Z.leb_spec 0 (lo + (hi - lo) / 2)); [|lia]. destruct (Z.ltb_spec (lo + (hi - lo) / 2) n); cbn [andb]; apply IH; lia.
Qed.
Lemma count_found : forall st n, counted st n -> 1 <= n <= INT_MAX -> text_count z st = Done n.
Proof.
  intros st n C N. unfold INT_MAX in *. unfold text_count. rewrite !(has_counted _ _ _ C). cbn [obind].
  destruct (Z.leb_spec 0 0); [|lia]. destruct (Z.ltb_spec 0 n); [|lia]. cbn [andb negb]. unfold INT_MAX. destruct (Z.ltb_spec 2147483647 n); [lia|]. rewrite Bool.andb_false_r.
  rewrite (search_finds st n C 31); try lia. cbn [obind]. f_equal. lia.
Qed.

(** Raw reading leaves the texts alone. *)
Lemma call_texts : forall c a r b, session_call c = true -> call_ok c -> (forall t, c <> gdxAddSetText t) -> (forall n k, c <> gdxSetTextNodeNr n k) -> exec z c a = Done (r, b) -> d_texts (g_dic b) = d_texts (g_dic a).
Proof.
  intros c a r b SC OK N1 N2 E. apply (during_dic z (fun d => d_texts d = d_texts (g_dic a)) [c] a b).
  - intros c' d d' [<-|[]] A I. destruct (texts_cases _ _ _ A) as [Q|[(l0 & u & x & Q & _)|(l0 & m & u & v & Q & _)]]; [congruence|exfalso; exact (N1 _ Q)|exfalso; exact (N2 _ _ Q)].
  - split; [cbn [forallb]; rewrite SC; reflexivity|]. split; [constructor; [exact OK|constructor]|]. exists [r]. cbn [run]. rewrite E. reflexivity.
  - reflexivity.
Qed.
Lemma record_texts : forall fuel m st m' st', highest_record z fuel m st = Done (m', st') -> 0 <= m -> 0 <= m' /\ d_texts (g_dic st') = d_texts (g_dic st).
Proof.
  induction fuel as [|fuel IH]; intros m st m' st' H M; cbn [highest_record] in H; [discriminate H|]. destruct (exec z gdxDataReadRaw st) as [[r s]|] eqn:E; [|discriminate H]. cbn [obind] in H.
  apply call_texts in E; [|reflexivity|exact Logic.I|discriminate|discriminate]. destruct (r_code r =? 0); [injection H as <- <-; split; [exact M|exact E]|]. destruct (d_round _) as [i|]; [|discriminate H].
  apply IH in H; [|lia]. destruct H as [H1 H2]. split; [exact H1|congruence].
Qed.
Lemma symbol_texts : forall k fuel n m st m' st', highest_symbol z k fuel n m st = Done (m', st') -> 0 <= n -> n + Z.of_nat k <= INT_MAX + 1 -> 0 <= m -> 0 <= m' /\ d_texts (g_dic st') = d_texts (g_dic st).
Proof.
  induction k as [|k IH]; intros fuel n m st m' st' H N0 N1 M; cbn [highest_symbol] in H; [injection H as <- <-; split; [exact M|reflexivity]|].
  destruct (exec z (gdxSymbolInfo n) st) as [[r s]|]; [|discriminate H]. cbn [obind] in H. destruct (negb _); [apply IH in H; [exact H|lia|lia|exact M]|].
  destruct (exec z (gdxDataReadRawStart n) st) as [[r1 s1]|] eqn:E1; [|discriminate H]. cbn [obind] in H. apply call_texts in E1; [|reflexivity|cbn; unfold int_ok, INT_MIN, INT_MAX in *; lia|discriminate|discriminate].
  destruct (highest_record z fuel m s1) as [[m1 s2]|] eqn:E2; [|discriminate H]. cbn [obind] in H. apply record_texts in E2; [|exact M]. destruct E2 as [M1 E2].
  destruct (exec z gdxDataReadDone s2) as [[r3 s3]|] eqn:E3; [|discriminate H]. cbn [obind] in H. apply call_texts in E3; [|reflexivity|exact Logic.I|discriminate|discriminate].
  apply IH in H; [|lia|lia|exact M1]. destruct H as [H1 H2]. split; [exact H1|congruence].
Qed.

Lemma table_read : forall st l, d_texts (g_dic st) = Some l -> (forall k, znth l 0 = Some k -> fst k = []) -> (forall i e, znth l i = Some e -> Forall (fun c => 32 <= c) (fst e)) ->
  forall k i, 0 <= i -> i + Z.of_nat k <= zlen l -> exists text ts ls, text_lines z k i st = Done text /\ Forall2 (elem_text z st) (count_from i k) ts /\ lines_in text = ls /\ table i ts ls.
Proof.
  intros st l L T0 SF. induction k as [|k IH]; intros i I0 I1; cbn [text_lines count_from].
  - exists [], [], []. split; [reflexivity|]. split; [constructor|]. split; [reflexivity|constructor].
  - destruct (IH (i + 1) ltac:(lia) ltac:(lia)) as (text & ts & ls & ET & F2 & EL & TB). destruct (znth_exists l i) as ([t nd] & E); [lia|].
    assert (R : exists r s, (if i =? 0 then Done (ret_s 1 [[]], st) else exec z (gdxGetElemText i) st) = Done (r, s) /\ hd [] (r_strs r) = t).
    { destruct (Z.eqb_spec i 0) as [->|NE].
      - exists (ret_s 1 [[]]), st. split; [reflexivity|]. symmetry. exact (T0 _ E).
      - cbn [exec]. unfold get_elem_text. rewrite L, E. eexists. eexists. split; reflexivity. }
    destruct R as (r & s & -> & HR). cbn [obind]. rewrite ET. cbn [obind]. rewrite HR.
    exists (pad_left 6 (int_str i) ++ s2z "   " ++ [34] ++ t ++ [34; ch_eol] ++ text), (t :: ts), ((pad_left 6 (int_str i) ++ s2z "   " ++ [34] ++ t ++ [34]) :: ls). split; [reflexivity|].
    split; [constructor; [apply elem_text_iff; eauto|exact F2]|]. split.
    + replace (pad_left 6 (int_str i) ++ s2z "   " ++ [34] ++ t ++ [34; ch_eol] ++ text) with ((pad_left 6 (int_str i) ++ s2z "   " ++ [34] ++ t ++ [34]) ++ 10 :: text) by (rewrite <- !app_assoc; reflexivity).
      rewrite line_in; [rewrite EL; reflexivity|]. intros X. unfold pad_left in X. rewrite <- app_assoc in X. apply in_app_or in X. destruct X as [X|X]; [apply repeat_spec in X; discriminate X|].
      apply in_app_or in X. destruct X as [X|X]; [exact (int_no_eol i I0 X)|]. apply in_app_or in X. destruct X as [X|X]; [cbn in X; intuition discriminate|]. apply in_app_or in X. destruct X as [X|X]; [cbn in X; intuition discriminate|].
      apply in_app_or in X. destruct X as [X|X]; [|cbn in X; intuition discriminate]. pose proof (SF _ _ E) as SF'. rewrite Forall_forall in SF'. specialize (SF' _ X). lia.
    + constructor; [|exact TB]. unfold pad_left. exists (Z.to_nat (6 - zlen (int_str i))). rewrite <- !app_assoc. reflexivity.
Qed.

(** The texts of a file that was written and opened. *)
Lemma first_text : forall cs st, in_writing z cs st -> exists l nd, d_texts (g_dic st) = Some l /\ znth l 0 = Some ([], nd).
Proof.
  apply (writing_dic z (fun d => exists l nd, d_texts d = Some l /\ znth l 0 = Some ([], nd))).
  - intros st C. apply created_dic in C. destruct C as (_ & _ & _ & _ & T & _). exists [([], 0)], 0. split; [exact T|reflexivity].
  - intros np d _ (l & nd & L & E). cbn [d_texts loaded contents_of c_texts]. unfold texts_of. rewrite L. eexists. exists 0. split; [reflexivity|]. rewrite !znth_map, E. reflexivity.
  - intros c d d' A (l & nd & L & E). destruct (texts_grow_step _ _ _ A l L) as (l' & L' & G). destruct (G _ _ E) as ([u k] & E' & F & _). cbn [fst] in F. subst u. eauto.
Qed.
Lemma reopened_texts : forall name prod compr cs rs st st2, reopened z name prod compr cs rs st st2 ->
  exists l, d_texts (g_dic st2) = Some l /\ 1 <= zlen l <= INT_MAX /\ (forall e, znth l 0 = Some e -> fst e = []) /\ (forall i e, znth l i = Some e -> Forall (fun c => 32 <= c) (fst e)).
Proof.
  intros name prod compr cs rs st st2 RO. pose proof RO as RO'. destruct RO' as (W & _ & _ & _ & _ & _ & _ & _ & _ & CF & _). apply writes_in_writing in W.
  destruct (reopened_tables _ _ _ _ _ _ _ _ RO) as (D & _). destruct (first_text _ _ W) as (l & nd & L & E).
  exists (List.map (fun s => (s, 0)) (List.map fst l)). rewrite D. cbn [d_texts loaded contents_of c_texts]. unfold texts_of. rewrite L. split; [reflexivity|].
  destruct CF as (_ & _ & CF & _). unfold texts_of in CF. rewrite L in CF. pose proof (znth_Some _ _ _ E). split; [unfold zlen in *; rewrite !map_length; lia|]. split.
  - intros e X. rewrite !znth_map, E in X. injection X as <-. reflexivity.
  - intros i e X. rewrite !znth_map in X. destruct (znth l i) as [[u k]|] eqn:Y; [|discriminate X]. injection X as <-. cbn [fst].
    apply (C34_element_texts_are_safe z cs st i u W). apply elem_text_iff. eauto.
Qed.
End T.

(** The number of texts is found with at most 32 steps, and no question is asked outside the
    integers. *)
Theorem C67_count : forall z name prod compr cs rs st st2, reopened z name prod compr cs rs st st2 ->
  exists n, text_count z st2 = Done n /\ forall i, (exists t, elem_text z st2 i t) <-> 0 <= i < n.
Proof.
  intros z name prod compr cs rs st st2 RO. destruct (reopened_texts _ _ _ _ _ _ _ _ RO) as (l & L & N & _ & _). exists (zlen l). split; [apply count_found; [exists l; auto|exact N]|].
  intros i. split.
  - intros (t & E). apply elem_text_iff in E. destruct E as (l' & nd & L' & E). rewrite L in L'. injection L' as <-. exact (znth_Some _ _ _ E).
  - intros I. destruct (znth_exists l i I) as ([t nd] & E). exists t. apply elem_text_iff. eauto.
Qed.
(** If the tool comes to its end, the list has every element text of the file, in the order
    of the numbers, and the line in front has their number. *)
Theorem C67_texts : forall z name prod compr cs rs st st2 ns nu fuel text st', reopened z name prod compr cs rs st st2 -> answers z st2 gdxSystemInfo (ret_i 1 [ns; nu]) ->
  set_texts z fuel st2 = Done (text, st') ->
  exists n m ts ls, (forall i, (exists t, elem_text z st2 i t) <-> 0 <= i < n) /\ Forall2 (elem_text z st2) (count_from 0 (Z.to_nat n)) ts /\
    lines_in text = [s2z "Count of set text strings in GDX: " ++ int_str n; s2z "max 0-based textIdx found in GDX: " ++ int_str m; s2z "   idx   text"] ++ ls /\ table 0 ts ls.
Proof.
  intros z name prod compr cs rs st st2 ns nu fuel text st' RO (sx & SI) H. destruct (C67_count _ _ _ _ _ _ _ _ RO) as (n & EN & CN). destruct (reopened_texts _ _ _ _ _ _ _ _ RO) as (l & L & N & T0 & SF).
  assert (NL : zlen l = n) by (pose proof (count_found z st2 (zlen l) (ex_intro _ l (conj L eq_refl)) N) as X; congruence).
  unfold set_texts in H. rewrite EN in H. cbn [obind] in H. unfold text_table in H. destruct (highest_text z fuel st2) as [[m s]|] eqn:E2; [|discriminate H]. cbn [obind] in H.
  assert (K : 0 <= m /\ d_texts (g_dic s) = Some l).
  { unfold highest_text in E2. rewrite SI in E2. cbn [obind ret_i r_ints nth] in E2. assert (NS : 0 <= ns <= INT_MAX).
    { cbn [exec] in SI. unfold system_info in SI. injection SI as <- _ _. pose proof RO as (_ & _ & _ & _ & _ & _ & _ & _ & _ & (CF & _) & _).
      destruct (reopened_tables _ _ _ _ _ _ _ _ RO) as (D & _). rewrite D. unfold sym_count, zlen in *. cbn [d_names loaded contents_of c_syms]. rewrite !map_length. lia. }
    apply symbol_texts in E2; [|lia|lia|lia]. destruct E2 as [A B]. split; [exact A|congruence]. }
  destruct K as [M LS]. destruct (table_read z s l LS T0 SF (Z.to_nat n) 0 ltac:(lia) ltac:(lia)) as (tx & ts & ls & ET & F2 & EL & TB). rewrite ET in H. cbn [obind] in H. apply done_fst in H. subst text.
  exists n, m, ts, ls. split; [exact CN|]. split; [|split; [|exact TB]].
  - clear - F2 L LS. induction F2 as [|i t is ts X F2 IH]; constructor; [|exact IH]. apply elem_text_iff in X. apply elem_text_iff. rewrite L. rewrite LS in X. exact X.
  - change ch_eol with 10. rewrite app_assoc. change ([10] ++ ?x) with (10 :: x). rewrite line_in.
    2: { intros X. apply in_app_or in X. destruct X as [X|X]; [cbn in X; intuition discriminate|]. apply int_no_eol in X; [exact X|lia]. }
    rewrite app_assoc. change ([10] ++ s2z "   idx   text" ++ [10] ++ tx) with (10 :: s2z "   idx   text" ++ 10 :: tx). rewrite line_in.
    2: { intros X. apply in_app_or in X. destruct X as [X|X]; [cbn in X; intuition discriminate|]. apply int_no_eol in X; [exact X|exact M]. }
    rewrite line_in by (cbn; intuition discriminate). rewrite EL. reflexivity.
Qed.

(** ** Cases *)

Definition case_listed : str * gst := match text_table rle_zlib 3 4 case_read with Done x => x | UB => ([], case_read) end.
Lemma case_counts : text_count rle_zlib case_read = Done 3.
Proof. apply count_found; [|unfold INT_MAX; lia]. eexists. split; vm_compute; reflexivity. Qed.
Lemma case_lists : set_texts rle_zlib 4 case_read = Done (fst case_listed, snd case_listed).
Proof. unfold set_texts. rewrite case_counts. vm_compute. reflexivity. Qed.
Example C67_case : exists n m ts ls, (forall i, (exists t, elem_text rle_zlib case_read i t) <-> 0 <= i < n) /\ Forall2 (elem_text rle_zlib case_read) (count_from 0 (Z.to_nat n)) ts /\
  lines_in (fst case_listed) = [s2z "Count of set text strings in GDX: " ++ int_str n; s2z "max 0-based textIdx found in GDX: " ++ int_str m; s2z "   idx   text"] ++ ls /\ table 0 ts ls.
Proof. refine (C67_texts rle_zlib _ _ _ _ _ _ case_read 7 3 4 _ _ case_reopened _ case_lists). ans. Qed.
Example C67_case_lines : lines_in (fst case_listed) = [s2z "Count of set text strings in GDX: 3"; s2z "max 0-based textIdx found in GDX: 1"; s2z "   idx   text";
  s2z "     0   """""; s2z "     1   ""a text"""; s2z "     2   ""another 'text"""].
Proof. vm_compute. reflexivity. Qed.
Example C67_case_count : exists n, text_count rle_zlib case_read = Done n /\ forall i, (exists t, elem_text rle_zlib case_read i t) <-> 0 <= i < n.
Proof. exact (C67_count _ _ _ _ _ _ _ _ case_reopened). Qed.

(** The other number in front of the list, called the largest number found in the records,
    is not that: the loop leaves out the last symbol.  Here the only symbol is a set with a
    record that has the text 1. *)
Definition dq_listed : str * gst := match text_table rle_zlib 2 4 dq_read with Done x => x | UB => ([], dq_read) end.
Lemma dq_counts : text_count rle_zlib dq_read = Done 2.
Proof. apply count_found; [|unfold INT_MAX; lia]. eexists. split; vm_compute; reflexivity. Qed.
Lemma dq_lists : set_texts rle_zlib 4 dq_read = Done (fst dq_listed, snd dq_listed).
Proof. unfold set_texts. rewrite dq_counts. vm_compute. reflexivity. Qed.
Theorem C67_highest_refuted : exists rs st text st' t, run rle_zlib dq_calls (new_object []) = Done (rs, st) /\
  symbol rle_zlib st 1 (s2z "i") 1 dt_set /\ reads_all rle_zlib st 1 [(1, [1], [dbl_1])] /\ dbl_1 = fofZ 1 /\ elem_text rle_zlib st 1 t /\
  set_texts rle_zlib 4 st = Done (text, st') /\ nth 1 (lines_in text) [] = s2z "max 0-based textIdx found in GDX: 0".
Proof.
  exists (match run rle_zlib dq_calls (new_object []) with Done (rs, _) => rs | UB => [] end), dq_read, (fst dq_listed), (snd dq_listed), (s2z "'a'").
  split; [vm_compute; reflexivity|]. split; [split; [lia|ans]|]. split; [exact dq_reads|]. split; [vm_compute; reflexivity|]. split; [eexists; ans|]. split; [exact dq_lists|vm_compute; reflexivity].
Qed.

Print Assumptions C67_count.
Print Assumptions C67_texts.
Print Assumptions C67_highest_refuted.
