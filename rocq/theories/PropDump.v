(** * C60, C61, C62: the tables that gdxdump writes *)

From Coq Require Import String Permutation Sorted.
From Verif Require Import Base Prim Values Records LinkedData StrHash IntMap Strings AStream BufStream State
  FileImage ApiCore ApiFile ApiWrite ApiRead Api FileFacts BlockFacts StreamFacts OpenFacts DicInv WriteInv WriteSteps Journal WriteCalls WriteTrace
  Footprint SessInv FileFlow Sessions Vocab PropErr Reopen ReadFacts ReadRecs ReadLoops Cases PropNames PropMeta Segment PropStruct PropTexts
  LabelFacts Contents Wrote PropLabels Readers PropRead Dump.
Open Scope Z_scope.
Open Scope list_scope.

(** ** Specification *)

(** *** A reader of delimited text *)

(** Fields are separated by [d], lines end with a line feed.  A field that begins with a
    quote ends with the next quote that is not doubled; with tabs as delimiters quotes mean
    nothing. *)
Inductive cell := c_new | c_plain | c_quoted | c_closed.
Fixpoint scan (quotes : bool) (d : Z) (m : cell) (cur : str) (row : list str) (s : str) : list (list str) :=
  match s with
  | [] => match m, row with c_new, [] => [] | _, _ => [row ++ [cur]] end
  | c :: r =>
      match m with
      | c_quoted => if c =? 34 then scan quotes d c_closed cur row r else scan quotes d c_quoted (cur ++ [c]) row r
      | _ =>
          if quotes && (c =? 34) && (match m with c_plain => false | _ => true end)
          then scan quotes d c_quoted (match m with c_closed => cur ++ [34] | _ => cur end) row r
          else if c =? d then scan quotes d c_new [] (row ++ [cur]) r
          else if c =? 10 then (row ++ [cur]) :: scan quotes d c_new [] [] r
          else scan quotes d c_plain (cur ++ [c]) row r
      end
  end.
Definition read_lines (d : Z) (text : str) : list (list str) := scan (negb (d =? 9)) d c_new [] [] text.

(** A text that needs no quotes. *)
Definition clean (d : Z) (t : str) : Prop := forall c, In c t -> c <> d /\ c <> 10 /\ c <> 34.
(** The delimiters: tab, comma, period, blank, semicolon. *)
Definition delimiter (d : Z) : Prop := d = 9 \/ d = 44 \/ d = 46 \/ d = 32 \/ d = 59.

(** *** The fields *)

(** A label; an index without one is shown by its number. *)
Definition shown_label (z : zlib) (st : gst) (k : Z) (s : str) : Prop :=
  label z st k s \/ ((forall x, ~ label z st k x) /\ s = s2z "L__" ++ int_str k).
(** The names of the special values. *)
Definition special_name (o : dopts) (i : Z) : option str :=
  let or (a : option str) (b : string) := Some (match a with Some s => s | None => s2z b end) in
  if i =? 0 then or (o_undf o) "Undf"%string else if i =? 1 then or (o_na o) "NA"%string else if i =? 2 then or (o_pinf o) "+Inf"%string
  else if i =? 3 then or (o_minf o) "-Inf"%string else if i =? 4 then or (o_eps o) "Eps"%string else None.
(** A value: an acronym, a special value, zero, or a number, which [num] writes. *)
Inductive value_text (z : zlib) (num : Z -> str) (o : dopts) (st : gst) (v : Z) : str -> Prop :=
| vt_acronym : forall s, answers z st (gdxAcronymName v) (ret_s 1 [s]) -> value_text z num o st v s
| vt_special : forall i s, answers z st (gdxAcronymName v) (ret_s 0 [[]]) -> answers z st (gdxMapValue v) (ret_i 1 [i]) -> special_name o i = Some s ->
    value_text z num o st v s
| vt_zero : forall s, answers z st (gdxAcronymName v) (ret_s 0 [[]]) -> answers z st (gdxMapValue v) (ret_i 0 [5]) -> o_zero o = Some s -> feqb v 0 = true ->
    value_text z num o st v s
| vt_number : answers z st (gdxAcronymName v) (ret_s 0 [[]]) -> answers z st (gdxMapValue v) (ret_i 0 [5]) -> o_zero o = None \/ feqb v 0 = false ->
    value_text z num o st v (num v).
(** The text of an element of a set. *)
Definition set_text (z : zlib) (st : gst) (v : Z) (t : str) : Prop :=
  (feqb v 0 = true /\ t = []) \/ (feqb v 0 = false /\ exists m, d_round v = Some m /\ elem_text z st m t).
(** Which values of a record are shown: the level, or all of them. *)
Definition all_fields (o : dopts) (typ : Z) : Prop := (typ = dt_var \/ typ = dt_equ) /\ o_full o = true.
Definition shown_values (z : zlib) (num : Z -> str) (o : dopts) (st : gst) (dim typ : Z) (vals : list Z) (vs : list str) : Prop :=
  (typ = dt_set /\ dim <> 0 -> (o_stext o = true -> exists t, set_text z st (nth 0 vals 0) t /\ vs = [t]) /\ (o_stext o = false -> vs = [])) /\
  (~ (typ = dt_set /\ dim <> 0) ->
    (all_fields o typ -> Forall2 (fun i => value_text z num o st (nth i vals 0)) [0%nat; 1%nat; 2%nat; 3%nat; 4%nat] vs) /\
    (~ all_fields o typ -> Forall2 (fun i => value_text z num o st (nth i vals 0)) [0%nat] vs)).
(** The line of a record. *)
Definition row_fields (z : zlib) (num : Z -> str) (o : dopts) (st : gst) (dim typ : Z) (r : Z * list Z * list Z) (fs : list str) : Prop :=
  exists ls vs, Forall2 (shown_label z st) (snd (fst r)) ls /\ shown_values z num o st dim typ (snd r) vs /\ fs = ls ++ vs.
(** The names of the columns of the indices: that of the domain, or Dim1, Dim2 and so on;
    with a number where it occurs already. *)
Definition base_name (doms : list str) (i : nat) : str :=
  let d := nth i doms [] in if str_eqb d (s2z "*") then s2z "Dim" ++ int_str (Z.of_nat i + 1) else d.
Definition names_for (doms names : list str) : Prop :=
  length names = length doms /\
  (forall i, (i < length doms)%nat -> nth i names [] = base_name doms i \/ exists k, nth i names [] = base_name doms i ++ s2z "_" ++ int_str k) /\
  (forall i, (i < length doms)%nat -> ~ In (base_name doms i) (firstn (i - 1) names) -> nth i names [] = base_name doms i) /\
  (forall i j, (i + 1 < j < length doms)%nat -> nth i names [] <> nth j names []).
Definition value_names (o : dopts) (typ : Z) (vs : list str) : Prop :=
  (typ = dt_set -> vs = if o_stext o then [s2z "Text"] else []) /\
  (typ <> dt_set -> all_fields o typ -> vs = [s2z "Val"; s2z "Marginal"; s2z "Lower"; s2z "Upper"; s2z "Scale"]) /\
  (typ <> dt_set -> ~ all_fields o typ -> vs = [s2z "Val"]).

(** ** Reading what was written *)

Section Scan.
Context (d : Z) (DL : delimiter d).
Notation q := (negb (d =? 9)).
Let d10 : d <> 10. Proof. unfold delimiter in DL. lia. Qed.
Let d34 : d <> 34. Proof. unfold delimiter in DL. lia. Qed.

(** The text [w] is a field with the content [f]. *)
Definition field (w f : str) : Prop := forall row rest,
  scan q d c_new [] row (w ++ d :: rest) = scan q d c_new [] (row ++ [f]) rest /\
  scan q d c_new [] row (w ++ 10 :: rest) = (row ++ [f]) :: scan q d c_new [] [] rest.

Lemma scan_plain : forall t cur row rest, clean d t ->
  scan q d c_plain cur row (t ++ d :: rest) = scan q d c_new [] (row ++ [cur ++ t]) rest /\
  scan q d c_plain cur row (t ++ 10 :: rest) = (row ++ [cur ++ t]) :: scan q d c_new [] [] rest.
Proof.
  induction t as [|c t IH]; intros cur row rest C.
  - cbn [app scan]. rewrite !andb_false_r, app_nil_r, Z.eqb_refl. destruct (Z.eqb_spec 10 d); [lia|]. split; reflexivity.
  - assert (C1 : c <> d /\ c <> 10 /\ c <> 34) by (apply C; left; reflexivity). assert (C2 : clean d t) by (intros x X; apply C; right; exact X).
    cbn [app scan]. rewrite !andb_false_r. destruct (Z.eqb_spec c d); [lia|]. destruct (Z.eqb_spec c 10); [lia|].
    destruct (IH (cur ++ [c]) row rest C2) as [-> ->]. rewrite <- app_assoc. split; reflexivity.
Qed.
Lemma field_clean : forall t, clean d t -> field t t.
Proof.
  intros [|c t] C row rest.
  - cbn [app scan]. rewrite Z.eqb_refl. destruct (Z.eqb_spec d 34); [lia|]. rewrite andb_false_r. cbn [andb]. destruct (Z.eqb_spec 10 34); [lia|]. rewrite andb_false_r. cbn [andb].
    destruct (Z.eqb_spec 10 d); [lia|]. split; reflexivity.
  - assert (C1 : c <> d /\ c <> 10 /\ c <> 34) by (apply C; left; reflexivity). assert (C2 : clean d t) by (intros x X; apply C; right; exact X).
    cbn [app scan]. destruct (Z.eqb_spec c 34); [lia|]. rewrite andb_false_r. cbn [andb]. destruct (Z.eqb_spec c d); [lia|]. destruct (Z.eqb_spec c 10); [lia|].
    apply (scan_plain t [c] row rest C2).
Qed.
(** With tabs every text without one is a field. *)
Lemma scan_tabs : d = 9 -> forall t m cur row rest, (m = c_new \/ m = c_plain) -> (forall c, In c t -> c <> 9 /\ c <> 10) ->
  scan q d m cur row (t ++ d :: rest) = scan q d c_new [] (row ++ [cur ++ t]) rest /\
  scan q d m cur row (t ++ 10 :: rest) = (row ++ [cur ++ t]) :: scan q d c_new [] [] rest.
Proof.
  intros D9. assert (Q : q = false) by (rewrite D9; reflexivity). rewrite Q. induction t as [|c t IH]; intros m cur row rest M C.
  - cbn [app scan]. rewrite Z.eqb_refl, app_nil_r. destruct (Z.eqb_spec 10 d); [lia|]. destruct M as [-> | ->]; split; reflexivity.
  - assert (C1 : c <> 9 /\ c <> 10) by (apply C; left; reflexivity). destruct (IH c_plain (cur ++ [c]) row rest (or_intror eq_refl) ltac:(intros x X; apply C; right; exact X)) as [E1 E2].
    rewrite <- app_assoc in E1, E2. cbn [app] in E1, E2. cbn [app scan andb]. destruct (Z.eqb_spec c d); [lia|]. destruct (Z.eqb_spec c 10); [lia|]. destruct M as [-> | ->]; split; assumption.
Qed.

Lemma scan_doubled : d <> 9 -> forall s cur row rest, scan q d c_quoted cur row (double_quotes s ++ 34 :: rest) = scan q d c_closed (cur ++ s) row rest.
Proof.
  intros N9. assert (Q : q = true) by (destruct (Z.eqb_spec d 9); [contradiction|reflexivity]). rewrite Q.
  induction s as [|c s IH]; intros cur row rest; cbn [double_quotes].
  - cbn [app scan]. change (34 =? 34) with true. cbv iota. rewrite app_nil_r. reflexivity.
  - unfold ch_quote. destruct (Z.eqb_spec c 34) as [->|N].
    + cbn [app scan]. change (34 =? 34) with true. cbv iota. cbn [andb]. rewrite IH, <- app_assoc. reflexivity.
    + cbn [app scan]. destruct (Z.eqb_spec c 34); [contradiction|]. rewrite IH, <- app_assoc. reflexivity.
Qed.
Lemma double_none : forall s, at_quote s = None -> double_quotes s = s.
Proof.
  induction s as [|c s IH]; intros H; [reflexivity|]. cbn [at_quote double_quotes] in *. destruct (c =? ch_quote); [discriminate|]. destruct (at_quote s) as [[a b]|]; [discriminate|]. rewrite IH; reflexivity.
Qed.
Lemma double_some : forall s a b, at_quote s = Some (a, b) -> double_quotes s = a ++ [ch_quote; ch_quote] ++ double_quotes b /\ (length b < length s)%nat.
Proof.
  induction s as [|c s IH]; intros a b H; [discriminate|]. cbn [at_quote double_quotes length] in *. destruct (Z.eqb_spec c ch_quote) as [->|N].
  - injection H as <- <-. split; [reflexivity|lia].
  - destruct (at_quote s) as [[a' b']|]; [|discriminate]. injection H as <- <-. destruct (IH _ _ eq_refl) as [-> L]. split; [reflexivity|lia].
Qed.
Lemma qqcsv_is : forall o s, o_delim o = d -> d <> 9 -> zlen s <= 256 -> qqcsv o s = [34] ++ double_quotes s ++ [34].
Proof.
  intros o s OD N9 L. unfold qqcsv. rewrite OD. destruct (Z.eqb_spec d ch_tab); [contradiction|]. destruct (at_quote s) as [[a b]|] eqn:E.
  - destruct (double_some _ _ _ E) as [-> LB]. rewrite firstn_all2 by (unfold zlen in L; lia). rewrite <- !app_assoc. reflexivity.
  - rewrite (double_none _ E). reflexivity.
Qed.
Lemma field_quoted : forall o s, o_delim o = d -> zlen s <= 256 -> (d = 9 -> forall c, In c s -> c <> 9 /\ c <> 10) -> field (qqcsv o s) s.
Proof.
  intros o s OD L T. destruct (Z.eq_dec d 9) as [E|N9].
  - assert (QS : qqcsv o s = s) by (unfold qqcsv; rewrite OD, E; reflexivity). rewrite QS. intros row rest. apply (scan_tabs E s c_new [] row rest); [left; reflexivity|exact (T E)].
  - rewrite (qqcsv_is o s OD N9 L). intros row rest. assert (Q : q = true) by (destruct (Z.eqb_spec d 9); [contradiction|reflexivity]).
    cbn [app]. rewrite <- !app_assoc. cbn [app]. pose proof (scan_doubled N9 s [] row) as SD. rewrite Q in *. cbn [scan andb]. change (34 =? 34) with true. cbn [andb].
    rewrite !SD. cbn [app scan andb]. destruct (Z.eqb_spec d 34); [lia|]. change (10 =? 34) with false. cbn [andb]. rewrite Z.eqb_refl. destruct (Z.eqb_spec 10 d); [lia|]. split; reflexivity.
Qed.
(** A line. *)
Lemma scan_line : forall ws fs, Forall2 field ws fs -> ws <> [] -> forall row rest,
  scan q d c_new [] row (join d ws ++ 10 :: rest) = (row ++ fs) :: scan q d c_new [] [] rest.
Proof.
  intros ws fs F. induction F as [|w f ws fs X F IH]; intros NE row rest; [contradiction|]. destruct ws as [|w2 ws].
  - inversion F. subst. cbn [join]. apply X.
  - change (join d (w :: w2 :: ws)) with (w ++ d :: join d (w2 :: ws)). rewrite <- app_assoc. cbn [app]. destruct (X row (join d (w2 :: ws) ++ 10 :: rest)) as [-> _]. rewrite IH by discriminate. rewrite <- app_assoc. reflexivity.
Qed.
Lemma join_app : forall a b, a <> [] -> b <> [] -> join d (a ++ b) = join d a ++ d :: join d b.
Proof.
  induction a as [|x a IH]; intros b NA NB; [contradiction|]. destruct a as [|y a].
  - cbn [app join]. destruct b; [contradiction|reflexivity].
  - change ((x :: y :: a) ++ b) with (x :: y :: (a ++ b)). change (join d (x :: y :: a ++ b)) with (x ++ d :: join d ((y :: a) ++ b)). change (join d (x :: y :: a)) with (x ++ d :: join d (y :: a)).
    rewrite IH by (discriminate || assumption). rewrite <- app_assoc. reflexivity.
Qed.
End Scan.

(** ** Numbers as text *)

Lemma digits_chars : forall fuel n c, 0 <= n -> In c (dec_digits fuel n) -> 48 <= c <= 57.
Proof.
  induction fuel as [|fuel IH]; intros n c N I; [destruct I|]. cbn [dec_digits] in I. apply in_app_or in I. pose proof (Z.mod_pos_bound n 10 ltac:(lia)) as MB. destruct I as [I|[<-|[]]]; [|lia].
  destruct (n <? 10); [destruct I|]. apply (IH (n / 10)); [apply Z.div_pos; lia|exact I].
Qed.
Lemma digits_length : forall fuel n, (length (dec_digits fuel n) <= fuel)%nat.
Proof. induction fuel as [|fuel IH]; intros n; [reflexivity|]. cbn [dec_digits]. rewrite app_length. cbn [length]. destruct (n <? 10); [cbn; lia|]. specialize (IH (n / 10)). lia. Qed.
Lemma int_str_chars : forall n c, In c (int_str n) -> 45 <= c <= 57.
Proof. intros n c I. unfold int_str in I. destruct (Z.ltb_spec n 0); [destruct I as [<-|I]; [lia|]|]; apply digits_chars in I; lia. Qed.
Lemma int_str_length : forall n, zlen (int_str n) <= 21.
Proof. intros n. unfold int_str, zlen. destruct (n <? 0); cbn [length]; [pose proof (digits_length 20 (- n))|pose proof (digits_length 20 n)]; lia. Qed.


(** ** Raw reads, one after the other *)

Definition alike (a b : gst) : Prop := g_env b = g_env a /\ same_dic (g_dic a) (g_dic b).
Lemma alike_trans : forall a b c, alike a b -> alike b c -> alike a c.
Proof. intros a b c [A1 A2] [B1 B2]. split; [congruence|eapply same_dic_trans; eassumption]. Qed.

(** From [s] on gdxDataReadRaw delivers [l] and then ends, in [e]. *)
Inductive gives (z : zlib) (st : gst) : list (Z * list Z * list Z) -> gst -> gst -> Prop :=
| gives_end : forall s e, exec z gdxDataReadRaw s = Done (ret 0, e) -> alike st e -> g_mode e = fr_init -> w_added (g_wrk e) = 0 -> gives z st [] s e
| gives_more : forall s s1 x l e, exec z gdxDataReadRaw s = Done (raw_resp x, s1) -> alike st s1 -> gives z st l s1 e -> gives z st (x :: l) s e.
Lemma gives_alike : forall z st l s e, gives z st l s e -> alike st e /\ g_mode e = fr_init /\ w_added (g_wrk e) = 0.
Proof. intros z st l s e H. induction H; auto. Qed.

Lemma read_done_added : forall b c, data_read_done b = Done (true, c) -> w_added (g_wrk c) = 0 /\ g_mode c = fr_init.
Proof.
  intros b c H. unfold data_read_done in H. cbv zeta in H. destruct (negb _) in H; [discriminate H|]. destruct (if _ =? 0 then _ else _) as [d|] in H; [|discriminate H].
  rewrite obind_done in H. injection H as <-. split; reflexivity.
Qed.

Section Z.
Context (z : zlib).

Lemma gives_items : forall F n st acts a, ReadRecs.begun fr_raw_data acts st a -> forall todo s, source z F n todo s -> quiet todo s -> ReadRecs.kept a s ->
  exists e, gives z st (List.map (as_item st) todo) s e.
Proof.
  intros F n st acts a B. assert (AL : forall s, ReadRecs.kept a s -> alike st s).
  { intros s K. split; [rewrite (kp_env _ _ K); apply (bg_env _ _ _ _ B)|eapply same_dic_trans; [apply (bg_dic _ _ _ _ B)|apply (kp_dic _ _ K)]]. }
  assert (MO : forall s, ReadRecs.kept a s -> g_mode s = fr_raw_data) by (intros s K; rewrite (kp_mode _ _ K); apply (bg_mode _ _ _ _ B)).
  induction todo as [|[[af ks] g] todo IH]; intros s SO QU K.
  - destruct (source_end _ _ _ _ SO) as (s1 & E1 & K1 & _). destruct (read_ends fr_raw_data acts st a s1 ltac:(cbn; tauto) B (kept_trans _ _ _ K K1)) as (e & E2 & N & _).
    exists e. destruct (read_done_added _ _ E2) as [A1 A2]. apply gives_end; [|split; [apply (en_env _ _ N)|apply (en_dic _ _ N)]|exact A2|exact A1].
    cbn [exec]. unfold read_raw, checked. rewrite (MO s K). change (mode_in fr_raw_data [fr_raw_data]) with true. cbv iota. rewrite E1. cbn [obind]. rewrite E2. reflexivity.
  - destruct (source_read _ _ _ _ _ _ _ _ SO QU) as (s1 & S1 & CK & _ & K1 & Q1 & E1). pose proof (kept_trans _ _ _ K K1) as K2. destruct (IH s1 S1 Q1 K2) as (e & G). exists e.
    cbn [List.map]. eapply gives_more; [|apply AL; exact K2|exact G]. cbn [exec]. unfold read_raw, checked. rewrite (MO s K). change (mode_in fr_raw_data [fr_raw_data]) with true. cbv iota.
    rewrite E1. cbn [obind]. rewrite CK. unfold raw_resp, as_item. cbn [fst snd]. rewrite (shows_kept _ _ _ K), (begun_shows _ _ _ _ _ B). reflexivity.
Qed.
(** All records of a symbol. *)
Lemma pass : forall st t rt n dim typ wt recs, holds z st n dim typ wt recs -> tabs st t rt -> e_nextacr (g_env st) <= 0 -> some_record dim recs -> g_mode st = fr_init ->
  exists r s1 e, exec z (gdxDataReadRawStart n) st = Done (r, s1) /\ gives z st (as_read (sees st wt) None recs) s1 e.
Proof.
  intros st t rt n dim typ wt recs H TB NX SR MO. destruct (holds_items _ _ _ _ _ _ _ _ _ H TB (or_intror NX) SR) as (F & tab & k & items & Q & HI & IT). destruct (IT st eq_refl eq_refl) as [<- QU].
  destruct (start_items z F tab k st n _ items fr_raw_data Q MO HI ltac:(discriminate)) as (s1 & E1 & S1 & B1).
  destruct (gives_items _ _ _ _ _ B1 items s1 S1 (begun_quiet _ _ _ _ _ B1 QU) (kept_refl s1)) as (e & G).
  eexists. exists s1, e. split; [|exact G]. cbn [exec]. unfold read_raw_start, read_start. rewrite E1. cbn [obind]. reflexivity.
Qed.
Lemma gives_run : forall st l s e, gives z st l s e -> exists s2, run z (repeat gdxDataReadRaw (length l)) s = Done (List.map raw_resp l, s2) /\ exec z gdxDataReadRaw s2 = Done (ret 0, e).
Proof.
  intros st l s e G. induction G as [s e X A M W|s s1 x l e X A G (s2 & R & E)]; [exists s; split; [reflexivity|exact X]|].
  exists s2. split; [|exact E]. cbn [length repeat run]. rewrite X. cbn [obind]. rewrite R. reflexivity.
Qed.
(** They are those of [reads_all]. *)
Lemma reads_gives : forall st t rt n dim typ wt recs l, holds z st n dim typ wt recs -> tabs st t rt -> e_nextacr (g_env st) <= 0 -> some_record dim recs -> g_mode st = fr_init ->
  reads_all z st n l -> l = as_read (sees st wt) None recs.
Proof.
  intros st t rt n dim typ wt recs l H TB NX SR MO R. pose proof (raw_back_ready _ _ _ _ _ _ _ _ _ H TB (or_intror NX) SR MO) as R2. eapply reads_all_unique; eassumption.
Qed.

(** ** The fields *)

Lemma label_text : forall st k, labels_inv (g_dic st) -> exists s, uel_string z k st = Done s /\ shown_label z st k s /\ zlen s <= 63 /\ forall c, In c s -> 32 <= c.
Proof.
  intros st k [_ LI]. unfold uel_string. cbn [exec]. unfold um_uel_get. destruct (znth (d_uels (g_dic st)) (k - 1)) as [[s m]|] eqn:E; cbn [obind].
  - exists s. split; [reflexivity|]. split; [left; apply label_iff; unfold uel_text; rewrite E; reflexivity|]. destruct (LI _ _ E) as [G _]. apply well_formed_iff in G. destruct G as (L & C & _). split; assumption.
  - exists (s2z "L__" ++ int_str k). split; [reflexivity|]. split.
    + right. split; [|reflexivity]. intros x X. apply label_iff in X. unfold uel_text in X. rewrite E in X. discriminate X.
    + split; [rewrite zlen_app; change (zlen (s2z "L__")) with 3; pose proof (int_str_length k); lia|]. intros c I. apply in_app_or in I. destruct I as [I|I]; [cbn in I; destruct I as [<-|[<-|[<-|[]]]]; lia|]. apply int_str_chars in I. lia.
Qed.

Context (num : Z -> str).
Lemma alike_uel : forall a b k, alike a b -> uel_string z k b = uel_string z k a.
Proof. intros a b k [_ [E _]]. unfold uel_string. cbn [exec]. unfold um_uel_get. rewrite E. cbn [d_uels set_d_names]. destruct (znth _ _) as [[s m]|]; reflexivity. Qed.
Lemma alike_val : forall o a b v, alike a b -> wr_val z num o v b = wr_val z num o v a.
Proof.
  intros o a b v [V [E _]]. unfold wr_val. cbn [exec]. unfold acronym_name, map_value. rewrite E, V. cbn [d_acros d_nn set_d_names].
  destruct (acro_of v) as [n|]; [|reflexivity]. cbn [obind]. destruct (n <=? 0).
  - cbn [obind]. destruct (index_of _ _ _); reflexivity.
  - destruct (d_nn (g_dic a)); [|reflexivity]. cbn [negb]. cbv zeta. destruct (zlen _ <=? 255); reflexivity.
Qed.
Lemma alike_text : forall o a b vals, alike a b -> csv_text z o vals b = csv_text z o vals a.
Proof.
  intros o a b vals [_ [E _]]. unfold csv_text. cbv zeta. destruct (feqb _ _); [reflexivity|]. destruct (d_round _) as [n|]; [|reflexivity]. cbn [exec]. unfold get_elem_text. rewrite E. cbn [d_texts set_d_names].
  destruct (d_texts (g_dic a)) as [l|]; [|reflexivity]. destruct (znth l n) as [[t nd]|]; reflexivity.
Qed.
Lemma omap_ext : forall A B (f g : A -> outcome B) l, (forall x, f x = g x) -> omap f l = omap g l.
Proof. intros A B f g l H. induction l as [|a l IH]; [reflexivity|]. cbn [omap]. rewrite H, IH. reflexivity. Qed.
Lemma alike_labels : forall o a b ks, alike a b -> omap (fun k => uel_csv z o k b) ks = omap (fun k => uel_csv z o k a) ks.
Proof. intros o a b ks A. apply omap_ext. intros k. unfold uel_csv. rewrite (alike_uel _ _ _ A). reflexivity. Qed.
Lemma alike_line : forall o dim typ ks vs a b, alike a b -> csv_line z num o dim typ ks vs b = csv_line z num o dim typ ks vs a.
Proof.
  intros o dim typ ks vs a b A. unfold csv_line. rewrite (alike_labels _ _ _ _ A), (alike_text _ _ _ _ A). unfold csv_values. rewrite !(alike_val _ _ _ _ A). reflexivity.
Qed.

Lemma value_written : forall o st v t, value_text z num o st v t -> wr_val z num o v st = Done t.
Proof.
  intros o st v t H. unfold wr_val. assert (NA : answers z st (gdxAcronymName v) (ret_s 0 [[]]) -> exists s', exec z (gdxAcronymName v) st = Done (ret_s 0 [[]], s')) by (intros X; exact X).
  destruct H as [s (s' & X)|i s A (s2 & M) SN|s A (s2 & M) OZ FZ|A (s2 & M) OZ].
  - rewrite X. reflexivity.
  - destruct (NA A) as (s' & ->). cbn [obind]. rewrite M. cbn [obind r_code ret_s ret_i r_ints hd]. change (negb (0 =? 0)) with false. cbv iota zeta.
    unfold special_name in SN. unfold special_out, special_str.
    destruct (Z.eqb_spec i 0) as [->|]; [injection SN as <-; destruct (o_undf o); reflexivity|].
    destruct (Z.eqb_spec i 1) as [->|]; [injection SN as <-; destruct (o_na o); reflexivity|].
    destruct (Z.eqb_spec i 2) as [->|]; [injection SN as <-; destruct (o_pinf o); reflexivity|].
    destruct (Z.eqb_spec i 3) as [->|]; [injection SN as <-; destruct (o_minf o); reflexivity|].
    destruct (Z.eqb_spec i 4) as [->|]; [injection SN as <-; destruct (o_eps o); reflexivity|discriminate SN].
  - destruct (NA A) as (s' & ->). cbn [obind]. rewrite M. cbn [obind r_code ret_s ret_i r_ints hd]. change (negb (0 =? 0)) with false. change (negb (5 =? 5)) with false. cbv iota zeta. rewrite OZ. change d_zero with 0. rewrite FZ. reflexivity.
  - destruct (NA A) as (s' & ->). cbn [obind]. rewrite M. cbn [obind r_code ret_s ret_i r_ints hd]. change (negb (0 =? 0)) with false. change (negb (5 =? 5)) with false. cbv iota zeta. change d_zero with 0.
    destruct (o_zero o); [|reflexivity]. destruct OZ as [OZ | ->]; [discriminate OZ|reflexivity].
Qed.
End Z.

(** ** Lines *)

(** A text of a set fits the strings of the tool; with tabs it must not contain one. *)
Definition text_fits (d : Z) (t : str) : Prop := zlen t <= 255 /\ (d = 9 -> forall c, In c t -> c <> 9 /\ c <> 10).
(** The values of a record can be shown. *)
Definition can_show (z : zlib) (num : Z -> str) (o : dopts) (st : gst) (dim typ : Z) (r : Z * list Z * list Z) : Prop :=
  exists vs, shown_values z num o st dim typ (snd r) vs /\ (typ = dt_set -> Forall (text_fits (o_delim o)) vs) /\ (typ <> dt_set -> Forall (clean (o_delim o)) vs).

Lemma join_cons : forall d w ws, join d (w :: ws) = w ++ match ws with [] => [] | _ => d :: join d ws end.
Proof. intros d w [|x ws]; [cbn [join]; rewrite app_nil_r; reflexivity|reflexivity]. Qed.
Lemma dim_setlike : forall typ, typ <> dt_alias -> is_setlike typ = (typ =? dt_set).
Proof. intros typ H. unfold is_setlike. destruct (Z.eqb_spec typ dt_alias); [contradiction|]. apply orb_false_r. Qed.
Lemma all_fields_iff : forall o typ, is_ve typ && o_full o = true <-> all_fields o typ.
Proof.
  intros o typ. unfold all_fields, is_ve. rewrite andb_true_iff, orb_true_iff, !Z.eqb_eq. tauto.
Qed.

Section Lines.
Context (z : zlib) (num : Z -> str) (o : dopts) (DL : delimiter (o_delim o)).
Notation d := (o_delim o).
Notation q := (negb (d =? 9)).

Lemma label_fields : forall st ks, labels_inv (g_dic st) ->
  exists ws ls, omap (fun k => uel_csv z o k st) ks = Done ws /\ Forall2 (field d) ws ls /\ Forall2 (shown_label z st) ks ls.
Proof.
  intros st ks LI. induction ks as [|k ks (ws & ls & E & F & G)]; [exists [], []; repeat split; constructor|].
  destruct (label_text z st k LI) as (s & X & SH & L & C). exists (qqcsv o s :: ws), (s :: ls). cbn [omap]. unfold uel_csv at 1. rewrite X. cbn [obind]. rewrite E. cbn [obind]. split; [reflexivity|].
  split; [constructor; [|exact F]|constructor; assumption]. apply (field_quoted d DL); [reflexivity|lia|]. intros _ c I. specialize (C c I). lia.
Qed.
Lemma omap_length : forall A B (f : A -> outcome B) l r, omap f l = Done r -> length r = length l.
Proof. intros A B f l. induction l as [|a l IH]; intros r H; cbn [omap] in H; [injection H as <-; reflexivity|]. destruct (f a) as [b|]; [|discriminate H]. cbn [obind] in H. destruct (omap f l) as [bs|]; [|discriminate H]. cbn [obind] in H. injection H as <-. cbn. rewrite (IH bs eq_refl). reflexivity. Qed.

Lemma values_fields : forall st dim typ vals vs, typ <> dt_set -> shown_values z num o st dim typ vals vs -> csv_values z num o typ vals st = Done (join d vs) /\ vs <> [].
Proof.
  intros st dim typ vals vs NS [_ SV]. assert (ND : ~ (typ = dt_set /\ dim <> 0)) by tauto. destruct (SV ND) as [SA SB]. unfold csv_values. destruct (is_ve typ && o_full o) eqn:AF.
  - apply all_fields_iff in AF. specialize (SA AF). inversion SA as [|i0 a l0 l1 A F1]; subst. inversion F1 as [|i1 b l2 l3 B F2]; subst. inversion F2 as [|i2 c l4 l5 C F3]; subst. inversion F3 as [|i3 e l6 l7 D F4]; subst. inversion F4 as [|i4 f l8 l9 E F5]; subst. inversion F5; subst.
    rewrite (value_written _ _ _ _ _ _ A), (value_written _ _ _ _ _ _ B), (value_written _ _ _ _ _ _ C), (value_written _ _ _ _ _ _ D), (value_written _ _ _ _ _ _ E). cbn [obind]. split; [reflexivity|discriminate].
  - assert (NF : ~ all_fields o typ) by (rewrite <- all_fields_iff, AF; discriminate). specialize (SB NF). inversion SB as [|i0 a l0 l1 A F1]; subst. inversion F1; subst. rewrite (value_written _ _ _ _ _ _ A). cbn [obind]. split; [reflexivity|discriminate].
Qed.
Lemma clean_fields : forall vs, Forall (clean d) vs -> Forall2 (field d) vs vs.
Proof. intros vs F. induction F as [|v vs C F IH]; constructor; [apply (field_clean d DL); exact C|exact IH]. Qed.
Lemma text_field : forall st vals t, set_text z st (nth 0 vals 0) t -> text_fits d t -> exists w, csv_text z o vals st = Done (d :: w) /\ field d w t.
Proof.
  intros st vals t ST [L TB]. unfold csv_text. cbv zeta. change d_zero with 0. destruct ST as [[Z0 ->]|(NZ & m & R & (nd & X))].
  - rewrite Z0. exists []. split; [reflexivity|]. apply (field_clean d DL). intros c [].
  - rewrite NZ, R. destruct X as (s' & X). rewrite X. cbn [obind ret_is r_strs hd]. eexists. split; [reflexivity|]. apply (field_quoted d DL); [reflexivity|lia|exact TB].
Qed.
Lemma line_read : forall st dim typ r, labels_inv (g_dic st) -> zlen (snd (fst r)) = dim -> typ <> dt_alias -> (typ = dt_set -> dim <> 0) -> can_show z num o st dim typ r ->
  exists ws fs, csv_line z num o dim typ (snd (fst r)) (snd r) st = Done (join d ws ++ [10]) /\ Forall2 (field d) ws fs /\ ws <> [] /\ row_fields z num o st dim typ r fs.
Proof.
  intros st dim typ [[af ks] vals] LI ZD NA SD (vs & SV & CS & CN). cbn [fst snd] in *. unfold csv_line. destruct (label_fields st ks LI) as (ws & ls & EL & FL & SL). pose proof (omap_length _ _ _ _ _ EL) as LL.
  rewrite (dim_setlike _ NA). destruct (Z.eqb_spec dim 0) as [D0|D0].
  - assert (ks = []) as -> by (destruct ks; [reflexivity|unfold zlen in ZD; cbn [length] in ZD; lia]). inversion SL; subst. assert (NS : typ <> dt_set) by (intros X; exact (SD X D0)).
    destruct (values_fields _ _ _ _ _ NS SV) as [-> NE]. cbn [obind]. exists vs, vs. split; [reflexivity|]. split; [apply clean_fields; exact (CN NS)|]. split; [exact NE|].
    exists [], vs. split; [constructor|]. split; [exact SV|reflexivity].
  - rewrite EL. cbn [obind]. assert (NW : ws <> []) by (intros ->; destruct ks; [unfold zlen in ZD; cbn in ZD; lia|discriminate LL]). assert (RF : row_fields z num o st dim typ (af, ks, vals) (ls ++ vs)) by (exists ls, vs; auto).
    destruct (Z.eqb_spec typ dt_set) as [TS|NS]; cbn [negb].
    + destruct SV as [SV _]. destruct (SV (conj TS D0)) as [S1 S0]. destruct (o_stext o).
      * destruct (S1 eq_refl) as (t & ST & ->). pose proof (Forall_inv (CS TS)) as TF. destruct (text_field _ _ _ ST TF) as (w & -> & FW). cbn [obind]. exists (ws ++ [w]), (ls ++ [t]).
        split; [|split; [apply Forall2_app; [exact FL|constructor; [exact FW|constructor]]|split; [destruct ws; discriminate|exact RF]]]. rewrite (join_app d ws [w]) by (exact NW || discriminate). cbn [join]. rewrite <- app_assoc. reflexivity.
      * rewrite (S0 eq_refl) in *. cbn [obind]. exists ws, ls. rewrite app_nil_r in RF. split; [reflexivity|]. split; [exact FL|]. split; [exact NW|exact RF].
    + destruct (values_fields _ _ _ _ _ NS SV) as [-> NE]. cbn [obind]. exists (ws ++ vs), (ls ++ vs).
      split; [|split; [apply Forall2_app; [exact FL|apply clean_fields; exact (CN NS)]|split; [destruct ws; [contradiction|discriminate]|exact RF]]]. rewrite (join_app d ws vs) by assumption. rewrite <- app_assoc. reflexivity.
Qed.
(** The text holds the lines [rows], whatever follows. *)
Definition reads_as (text : str) (rows : list (list str)) : Prop := forall rest, scan q d c_new [] [] (text ++ rest) = rows ++ scan q d c_new [] [] rest.
Lemma reads_as_nil : reads_as [] [].
Proof. intros rest. reflexivity. Qed.
Lemma reads_as_app : forall a b x y, reads_as a x -> reads_as b y -> reads_as (a ++ b) (x ++ y).
Proof. intros a b x y A B rest. rewrite <- !app_assoc, A, B. reflexivity. Qed.
Lemma reads_as_line : forall ws fs, Forall2 (field d) ws fs -> ws <> [] -> reads_as (join d ws ++ [10]) [fs].
Proof. intros ws fs F NE rest. rewrite <- app_assoc. cbn [app]. apply (scan_line d ws fs F NE []). Qed.
Lemma reads_as_all : forall t rows, reads_as t rows -> read_lines d t = rows.
Proof. intros t rows H. specialize (H []). rewrite !app_nil_r in H. exact H. Qed.

Lemma lines_read : forall st dim typ, labels_inv (g_dic st) -> typ <> dt_alias -> (typ = dt_set -> dim <> 0) ->
  forall l s e, gives z st l s e -> Forall (fun r => zlen (snd (fst r)) = dim /\ can_show z num o st dim typ r) l -> forall fuel, (length l < fuel)%nat ->
  exists text rows, csv_lines z num fuel o dim typ s = Done (text, e) /\ reads_as text rows /\ Forall2 (row_fields z num o st dim typ) l rows.
Proof.
  intros st dim typ LI NA SD l s e G. induction G as [s e X A M W|s s1 x l e X A G IH]; intros FA fuel FU; (destruct fuel as [|fuel]; [cbn [length] in FU; lia|]).
  - exists [], []. cbn [csv_lines]. rewrite X. cbn [obind ret r_code]. split; [reflexivity|]. split; [apply reads_as_nil|constructor].
  - inversion FA as [|x' l' [ZD CS] FA']; subst. destruct (IH FA' fuel ltac:(cbn [length] in FU; lia)) as (text & rows & E & RA & F2). destruct (line_read st (zlen (snd (fst x))) typ x LI eq_refl NA SD CS) as (ws & fs & EL & FF & NE & RF).
    exists ((join d ws ++ [10]) ++ text), ([fs] ++ rows). cbn [csv_lines]. rewrite X. destruct x as [[af ks] vals]. cbn [fst snd] in *. unfold raw_resp, ret_iv. cbn [obind r_code r_ints r_vals tl fst snd]. change (1 =? 0) with false. cbv iota.
    rewrite (alike_line z num o _ typ ks vals _ _ A), EL. cbn [obind]. rewrite E. cbn [obind]. split; [reflexivity|]. split; [apply reads_as_app; [apply reads_as_line; assumption|exact RA]|]. constructor; assumption.
Qed.
End Lines.

(** ** The first line *)

Definition val_of (s : str) : Z := fold_left (fun a c => a * 10 + (c - 48)) s 0.
Lemma val_digits : forall k n, 0 <= n < 10 ^ Z.of_nat k -> val_of (dec_digits k n) = n.
Proof.
  induction k as [|k IH]; intros n H; [change (10 ^ Z.of_nat 0) with 1 in H; cbn; lia|]. cbn [dec_digits]. unfold val_of. rewrite fold_left_app. cbn [fold_left].
  replace (Z.of_nat (S k)) with (Z.of_nat k + 1) in H by lia. rewrite Z.pow_add_r in H by lia. change (10 ^ 1) with 10 in H. pose proof (Z.div_mod n 10 ltac:(lia)) as DM.
  destruct (Z.ltb_spec n 10) as [L|L]; [cbn [fold_left]; rewrite Z.mod_small by lia; lia|]. fold (val_of (dec_digits k (n / 10))). rewrite IH; [lia|]. split; [apply Z.div_pos; lia|apply Z.div_lt_upper_bound; lia].
Qed.
Lemma int_str_inj : forall a b, 0 <= a < 10 ^ 20 -> 0 <= b < 10 ^ 20 -> int_str a = int_str b -> a = b.
Proof.
  intros a b A B E. unfold int_str in E. destruct (Z.ltb_spec a 0); [lia|]. destruct (Z.ltb_spec b 0); [lia|]. rewrite <- (val_digits 20 a), <- (val_digits 20 b) by assumption. rewrite E. reflexivity.
Qed.
Definition numbered (base : str) (k : Z) : str := base ++ s2z "_" ++ int_str k.
Fixpoint from (nr : Z) (k : nat) : list Z := match k with O => [] | S j => nr :: from (nr + 1) j end.
Lemma from_in : forall k nr x, In x (from nr k) <-> nr <= x < nr + Z.of_nat k.
Proof. induction k as [|k IH]; intros nr x; cbn [from In]; [lia|]. rewrite IH. lia. Qed.
Lemma from_nodup : forall k nr, NoDup (from nr k).
Proof. induction k as [|k IH]; intros nr; constructor; [rewrite from_in; lia|apply IH]. Qed.
Lemma from_length : forall k nr, length (from nr k) = k.
Proof. induction k as [|k IH]; intros nr; [reflexivity|]. cbn. rewrite IH. reflexivity. Qed.

Lemma str_eqb_in : forall s l, existsb (str_eqb s) l = true <-> In s l.
Proof. intros s l. rewrite existsb_exists. split; [intros (x & I & E); apply str_eqb_spec in E; subst; exact I|intros I; exists s; split; [exact I|apply str_eqb_spec; reflexivity]]. Qed.
Lemma free_column_or : forall fuel base s before nr,
  (exists r nr', free_column fuel base s before nr = Done (r, nr') /\ nr <= nr' <= nr + Z.of_nat fuel /\ ~ In r before /\ (r = s \/ exists k, r = numbered base k) /\ (~ In s before -> r = s)) \/
  (forall k, nr <= k < nr + Z.of_nat fuel -> In (numbered base k) before).
Proof.
  induction fuel as [|fuel IH]; intros base s before nr; [right; intros k K; lia|]. cbn [free_column]. destruct (existsb (str_eqb s) before) eqn:E.
  - apply str_eqb_in in E. destruct (IH base (numbered base nr) before (nr + 1)) as [(r & nr' & H & N & NI & R & _)|A].
    + left. exists r, nr'. split; [exact H|]. split; [lia|]. split; [exact NI|]. split; [right; destruct R as [->|R]; [exists nr; reflexivity|exact R]|]. intros X. contradiction.
    + destruct (existsb (str_eqb (numbered base nr)) before) eqn:E2.
      * right. intros k K. apply str_eqb_in in E2. destruct (Z.eq_dec k nr) as [->|N]; [exact E2|apply A; lia].
      * left. exists (numbered base nr), (nr + 1). split; [|split; [lia|split; [intros X; apply str_eqb_in in X; congruence|split; [right; exists nr; reflexivity|intros X; contradiction]]]].
        fold (numbered base nr). destruct fuel; cbn [free_column]; rewrite E2; reflexivity.
  - left. exists s, nr. split; [reflexivity|]. split; [lia|]. split; [intros X; apply str_eqb_in in X; congruence|]. split; [left; reflexivity|reflexivity].
Qed.
Lemma numbered_inj : forall base a b, 0 <= a < 10 ^ 20 -> 0 <= b < 10 ^ 20 -> numbered base a = numbered base b -> a = b.
Proof. intros base a b A B E. unfold numbered in E. apply app_inv_head in E. apply app_inv_head in E. apply int_str_inj; assumption. Qed.
Lemma free_column_ok : forall fuel base s before nr, 0 <= nr -> nr + Z.of_nat fuel < 10 ^ 20 -> (length before < fuel)%nat ->
  exists r nr', free_column fuel base s before nr = Done (r, nr') /\ nr <= nr' <= nr + Z.of_nat fuel /\ ~ In r before /\ (r = s \/ exists k, r = numbered base k) /\ (~ In s before -> r = s).
Proof.
  intros fuel base s before nr N0 N1 L. destruct (free_column_or fuel base s before nr) as [X|A]; [exact X|exfalso].
  assert (ND : NoDup (List.map (numbered base) (from nr fuel))).
  { assert (G : forall l, (forall x, In x l -> 0 <= x < 10 ^ 20) -> NoDup l -> NoDup (List.map (numbered base) l)).
    { induction l as [|x l IH]; intros R D; cbn [List.map]; [constructor|]. inversion D; subst. constructor; [|apply IH; [intros y Y; apply R; right; exact Y|assumption]].
      rewrite in_map_iff. intros (y & E & Y). apply numbered_inj in E; [subst; contradiction|apply R; right; exact Y|apply R; left; reflexivity]. }
    apply G; [intros x X; apply from_in in X; lia|apply from_nodup]. }
  assert (IC : incl (List.map (numbered base) (from nr fuel)) before) by (intros x X; apply in_map_iff in X; destruct X as (k & <- & K); apply A; apply from_in; exact K).
  pose proof (NoDup_incl_length ND IC) as LE. rewrite map_length, from_length in LE. lia.
Qed.

Lemma base_app : forall a b i, (i < length a)%nat -> base_name (a ++ b) i = base_name a i.
Proof. intros a b i L. unfold base_name. rewrite app_nth1 by exact L. reflexivity. Qed.
Lemma firstn_app1 : forall A n (a b : list A), (n <= length a)%nat -> firstn n (a ++ b) = firstn n a.
Proof. intros A n a b L. rewrite firstn_app. replace (n - length a)%nat with O by lia. cbn [firstn]. apply app_nil_r. Qed.
Lemma nth_firstn1 : forall A i n (l : list A) x, (i < n)%nat -> nth i (firstn n l) x = nth i l x.
Proof. intros A i n. revert i. induction n as [|n IH]; intros i l x L; [lia|]. destruct l as [|a l]; [reflexivity|]. destruct i as [|i]; [reflexivity|]. cbn [firstn nth]. apply IH. lia. Qed.
Lemma columns : forall doms pre done nr, names_for pre done -> 1 <= nr <= 1 + 30 * zlen done -> (length pre + length doms <= 20)%nat ->
  exists names, column_names doms done nr = Done names /\ names_for (pre ++ doms) names.
Proof.
  induction doms as [|dm doms IH]; intros pre done nr NF N LE; cbn [column_names].
  - exists done. split; [reflexivity|]. rewrite app_nil_r. exact NF.
  - set (base := if str_eqb dm (s2z "*") then s2z "Dim" ++ int_str (zlen done + 1) else dm). pose proof NF as (LN & FN & KN & DN). cbn [length] in LE.
    assert (BL : (length (removelast done) < 30)%nat) by (rewrite removelast_firstn_len; pose proof (firstn_le_length (pred (length done)) done); lia).
    assert (ZD : zlen done <= 20) by (unfold zlen; lia).
    destruct (free_column_ok 30 base base (removelast done) nr ltac:(lia) ltac:(lia) BL) as (r & nr' & -> & NR & NI & R & KB). cbn [obind].
    replace (pre ++ dm :: doms) with ((pre ++ [dm]) ++ doms) by (rewrite <- app_assoc; reflexivity). apply IH; [|rewrite zlen_app; change (zlen [r]) with 1; lia|rewrite app_length; cbn [length]; lia].
    assert (BN : base_name (pre ++ [dm]) (length done) = base) by (unfold base_name, base; rewrite LN, app_nth2, Nat.sub_diag by lia; cbn [nth]; unfold zlen; rewrite LN; reflexivity).
    assert (RN : nth (length done) (done ++ [r]) [] = r) by (rewrite app_nth2, Nat.sub_diag by lia; reflexivity).
    split; [rewrite !app_length, LN; reflexivity|]. split; [|split].
    + intros i I. rewrite app_length in I. cbn [length] in I. destruct (Nat.eq_dec i (length done)) as [->|NE].
      * rewrite RN, BN. exact R.
      * rewrite app_nth1, base_app by lia. apply FN. lia.
    + intros i I NB. rewrite app_length in I. cbn [length] in I. destruct (Nat.eq_dec i (length done)) as [->|NE].
      * rewrite BN in *. rewrite RN. apply KB. rewrite removelast_firstn_len. rewrite firstn_app1 in NB by lia. rewrite Nat.sub_1_r in NB. exact NB.
      * rewrite base_app in * by lia. rewrite app_nth1 by lia. rewrite firstn_app1 in NB by lia. apply KN; [lia|exact NB].
    + intros i j [I J]. rewrite app_length in J. cbn [length] in J. destruct (Nat.eq_dec j (length done)) as [->|NE].
      * rewrite RN. rewrite app_nth1 by lia. intros E. apply NI. rewrite <- E, removelast_firstn_len.
        rewrite <- (nth_firstn1 _ i (pred (length done)) done) by lia. apply nth_In. rewrite firstn_length. lia.
      * rewrite !app_nth1 by lia. apply DN. lia.
Qed.
Lemma names_nil : names_for [] [].
Proof. split; [reflexivity|]. split; [|split]; cbn [length]; intros; lia. Qed.

(** Names that the strings of the tool can hold. *)
Definition name_fits (s : str) : Prop := zlen s <= 63 /\ forall c, In c s -> 32 <= c.
Lemma names_fit : forall doms names, names_for doms names -> Forall name_fits doms -> Forall (fun s : str => zlen s <= 256 /\ forall c, In c s -> 32 <= c) names.
Proof.
  intros doms names (LN & FN & _) FD. apply Forall_forall. intros s S0. destruct (In_nth (A:=str) names s ([] : str) S0) as (i & LI & EI). assert (I : (i < length doms)%nat) by (rewrite <- LN; exact LI). rewrite <- EI. clear EI S0 LI.
  assert (B : zlen (base_name doms i) <= 100 /\ forall c, In c (base_name doms i) -> 32 <= c).
  { unfold base_name. destruct (str_eqb _ _).
    - split; [rewrite zlen_app; change (zlen (s2z "Dim")) with 3; pose proof (int_str_length (Z.of_nat i + 1)); lia|]. intros c C. apply in_app_or in C. destruct C as [C|C]; [cbn in C; destruct C as [<-|[<-|[<-|[]]]]; lia|]. apply int_str_chars in C. lia.
    - rewrite Forall_forall in FD. destruct (FD (nth i doms []) (nth_In _ _ I)) as [A C]. split; [lia|exact C]. }
  destruct B as [BL BC]. destruct (FN i I) as [->|(k & ->)]; [split; [lia|exact BC]|]. rewrite !zlen_app. change (zlen (s2z "_")) with 1. pose proof (int_str_length k). split; [lia|].
  intros c C. apply in_app_or in C. destruct C as [C|C]; [apply BC; exact C|]. apply in_app_or in C. destruct C as [C|C]; [cbn in C; destruct C as [<-|[]]; lia|]. apply int_str_chars in C. lia.
Qed.

Section Header.
Context (o : dopts) (DL : delimiter (o_delim o)).
Notation d := (o_delim o).
Lemma quoted_fields : forall names, Forall (fun s : str => zlen s <= 256 /\ forall c, In c s -> 32 <= c) names -> Forall2 (field d) (List.map (qqcsv o) names) names.
Proof.
  intros names F. induction F as [|s names [L C] F IH]; cbn [List.map]; constructor; [|exact IH]. apply (field_quoted d DL); [reflexivity|exact L|]. intros _ c I. specialize (C c I). lia.
Qed.
Definition vnames (typ : Z) : list str :=
  if typ =? dt_set then (if o_stext o then [s2z "Text"] else [])
  else if is_ve typ && o_full o then [s2z "Val"; s2z "Marginal"; s2z "Lower"; s2z "Upper"; s2z "Scale"] else [s2z "Val"].
Lemma vnames_spec : forall typ, value_names o typ (vnames typ).
Proof.
  intros typ. unfold value_names, vnames. split; [intros ->; reflexivity|]. split; intros NS AF; (destruct (Z.eqb_spec typ dt_set); [contradiction|]).
  - apply all_fields_iff in AF. rewrite AF. reflexivity.
  - destruct (is_ve typ && o_full o) eqn:E; [exfalso; apply AF, all_fields_iff; exact E|reflexivity].
Qed.
Lemma vnames_fit : forall typ, Forall (fun s : str => zlen s <= 256 /\ forall c, In c s -> 32 <= c) (vnames typ).
Proof.
  assert (G : forall s, str_ok s -> (forallb (fun c => 32 <=? c) s = true) -> zlen s <= 256 -> zlen s <= 256 /\ forall c, In c s -> 32 <= c).
  { intros s _ FB L. split; [exact L|]. intros c C. rewrite forallb_forall in FB. specialize (FB c C). lia. }
  assert (H : Forall (fun s : str => zlen s <= 256 /\ forall c, In c s -> 32 <= c) [s2z "Text"; s2z "Val"; s2z "Marginal"; s2z "Lower"; s2z "Upper"; s2z "Scale"]).
  { repeat (apply Forall_cons; [apply G; [apply str_okb_ok; reflexivity|reflexivity|vm_compute; discriminate]|]). constructor. }
  intros typ. rewrite Forall_forall in H. apply Forall_forall. intros s I. apply H. revert I. unfold vnames. destruct (typ =? dt_set), (o_stext o), (is_ve typ && o_full o); cbn [In]; tauto.
Qed.
Lemma header_read : forall names typ, typ <> dt_alias -> o_header o = None -> (typ = dt_set -> names <> []) -> Forall (fun s : str => zlen s <= 256 /\ forall c, In c s -> 32 <= c) names ->
  reads_as o (csv_header o names typ) (if o_hdr o then [names ++ vnames typ] else []).
Proof.
  intros names typ NA OH SN FN. unfold csv_header. rewrite OH. destruct (o_hdr o); [|apply reads_as_nil].
  assert (E : forall A : str, A = join d (List.map (qqcsv o) (names ++ vnames typ)) ++ [10] -> reads_as o A [names ++ vnames typ]).
  { intros A ->. apply reads_as_line; [apply quoted_fields; apply Forall_app; split; [exact FN|apply vnames_fit]|]. intros X. apply map_eq_nil in X. apply app_eq_nil in X. destruct X as [-> X]. unfold vnames in X. destruct (Z.eqb_spec typ dt_set) as [T|T]; [exact (SN T eq_refl)|]. destruct (is_ve typ && o_full o); discriminate X. }
  apply E. rewrite map_app. rewrite (dim_setlike _ NA). unfold vnames, is_ve. destruct (Z.eqb_spec typ dt_set) as [->|T]; cbn [negb].
  - change ((dt_set =? dt_var) || (dt_set =? dt_equ)) with false. cbn [andb app]. destruct (o_stext o); cbn [List.map].
    + rewrite (join_app d (List.map (qqcsv o) names) [qqcsv o (s2z "Text")]); [|intros X; apply map_eq_nil in X; exact (SN eq_refl X)|discriminate]. cbn [join]. rewrite <- app_assoc. reflexivity.
    + rewrite app_nil_r. reflexivity.
  - assert (J : forall vs, vs <> [] -> join d (List.map (qqcsv o) names ++ vs) = join d (List.map (qqcsv o) names) ++ match names with [] => [] | _ => [d] end ++ join d vs).
    { intros vs NV. destruct names as [|a names]; [reflexivity|]. rewrite (join_app d (List.map (qqcsv o) (a :: names)) vs); [reflexivity|discriminate|exact NV]. }
    destruct (((typ =? dt_var) || (typ =? dt_equ)) && o_full o); cbn [List.map]; rewrite J by discriminate; destruct names; cbn [join app]; repeat (rewrite <- app_assoc || rewrite <- app_comm_cons); cbn [app]; reflexivity.
Qed.
End Header.

(** ** C60: the table is the symbol *)

Lemma domain_state : forall z st n name dim typ r sd, symbol z st n name dim typ -> exec z (gdxSymbolGetDomainX n) st = Done (r, sd) -> sd = st.
Proof.
  intros z st n name dim typ r sd (N0 & ss & SI) DX. cbn [exec] in DX, SI. unfold symbol_info in SI. destruct (Z.eqb_spec n 0); [contradiction|]. destruct (znth (d_names (g_dic st)) (n - 1)) as [[nm s]|] eqn:ZN; [|discriminate SI].
  unfold symbol_get_domain_x in DX. destruct (negb (d_nn (g_dic st))); [discriminate DX|]. rewrite (proj2 (get_sym_znth (g_dic st) n s) (ex_intro _ nm ZN)) in DX. destruct (sy_dstrs s) as [l|].
  - destruct (dom_names _ l) as [x|]; [|discriminate DX]. cbn [obind] in DX. injection DX as _ X. symmetry. exact X.
  - destruct (sy_doms s) as [l|]; [|injection DX as _ X; symmetry; exact X]. destruct (dom_names _ l) as [x|]; [|discriminate DX]. cbn [obind] in DX. injection DX as _ X. symmetry. exact X.
Qed.
Lemma nth_all : forall doms : list str, List.map (fun i => nth i doms []) (seq 0 (Z.to_nat (zlen doms))) = doms.
Proof.
  intros doms. replace (Z.to_nat (zlen doms)) with (length doms) by (unfold zlen; lia). apply (nth_ext _ _ [] []); [rewrite map_length, seq_length; reflexivity|]. intros i I. rewrite map_length, seq_length in I.
  rewrite (nth_indep _ [] ((fun i => nth i doms []) 0%nat)) by (rewrite map_length, seq_length; exact I). rewrite (map_nth (fun i => nth i doms [])). rewrite seq_nth by exact I. reflexivity.
Qed.

(** gdxdump writes a table with a line for each record in the order of the records: the
    labels and the values.  A reader that knows the delimiter finds these fields again,
    whatever characters the labels and texts contain.  [fuel] bounds the calls that the
    model of the tool makes; it only has to exceed the number of records. *)
Theorem C60_csv : forall z num o st n name dim typ wt recs c doms l fuel,
  wrote z st n dim typ wt recs -> some_record dim recs -> no_numbering z st -> symbol z st n name dim typ -> (typ = dt_set -> dim <> 0) ->
  answers z st (gdxSymbolGetDomainX n) (ret_s c doms) -> zlen doms = dim -> Forall name_fits doms ->
  delimiter (o_delim o) -> o_header o = None -> o_cdim o = false \/ dim < 2 ->
  reads_all z st n l -> Forall (can_show z num o st dim typ) l -> (length l < fuel)%nat ->
  exists text st' names vs rows, csv_symbol z num fuel o n st = Done (text, st') /\
    read_lines (o_delim o) text = (if o_hdr o then [names ++ vs] else []) ++ rows /\
    names_for doms names /\ value_names o typ vs /\ Forall2 (row_fields z num o st dim typ) l rows.
Proof.
  intros z num o st n name dim typ wt recs c doms l fuel W SR NN SY SD (sd & DX) ZD FD DL OH CD RA CS FU.
  destruct (wrote_holds _ _ _ _ _ _ _ W) as (H & TB & MO & _). pose proof (no_numbering_env _ _ NN) as NX. pose proof (reads_gives _ _ _ _ _ _ _ _ _ _ H TB NX SR MO RA) as ->.
  destruct (pass _ _ _ _ _ _ _ _ _ H TB NX SR MO) as (r & s1 & e & E1 & G). destruct H as (_ & GR & DB & TY & _). assert (NA : typ <> dt_alias) by (unfold dt_alias, dt_equ in *; lia).
  pose proof (proj1 (wrote_labels _ _ _ _ _ _ _ W)) as LI. destruct SY as (N0 & ss & SI).
  pose proof (domain_state _ _ _ _ _ _ _ _ (conj N0 (ex_intro _ ss SI)) DX) as S2.
  subst sd. assert (NC : o_cdim o && (2 <=? dim) = false) by (destruct CD as [->|CD]; [reflexivity|destruct (Z.leb_spec 2 dim); [lia|apply andb_false_r]]).
  assert (DS : List.map (fun i => nth i doms []) (seq 0 (Z.to_nat dim)) = doms) by (rewrite <- ZD; apply nth_all).
  assert (LE : (length ([] : list str) + length doms <= 20)%nat) by (unfold zlen in ZD; cbn [length]; lia).
  destruct (columns doms [] [] 1 names_nil ltac:(change (zlen (@nil str)) with 0; lia) LE) as (names & CN & NF). cbn [app] in NF.
  assert (FA : Forall (fun r => zlen (snd (fst r)) = dim /\ can_show z num o st dim typ r) (as_read (sees st wt) None recs)).
  { clear - CS GR DB. revert CS. generalize (@None (list Z)). induction GR as [|[k v] recs [G _] GR IH]; intros prev CS; cbn [as_read] in *; constructor; inversion CS; subst; [|apply IH; assumption].
    split; [|assumption]. cbn [fst snd] in *. unfold zlen. lia. }
  destruct (lines_read z num o DL st dim typ LI NA SD _ _ _ G FA fuel FU) as (text & rows & EL & RT & F2).
  exists (csv_header o names typ ++ text), e, names, (vnames o typ), rows. split; [|split; [|split; [exact NF|split; [apply vnames_spec|exact F2]]]].
  - unfold csv_symbol. change (exec z gdxSystemInfo st) with (system_info st). unfold system_info. cbn [obind]. rewrite SI. cbn [obind]. rewrite DX. cbn [obind ret_is ret_s r_ints r_strs nth]. rewrite DS, CN. cbn [obind]. rewrite NC. cbn [negb]. rewrite E1. cbn [obind]. rewrite EL. reflexivity.
  - apply reads_as_all. apply reads_as_app; [|exact RT]. apply header_read; [exact DL|exact NA|exact OH| |eapply names_fit; eassumption].
    intros TS ->. destruct NF as [LN _]. cbn in LN. apply (SD TS). unfold zlen in ZD. lia.
Qed.

Definition dc_opts : dopts := mkDopts 44 true None false true false None (Some (s2z "n/a")) None None None None.
Lemma rc_shown : forall vals, In vals (List.map snd rc_raw) -> forall i, In i [0%nat; 1%nat; 2%nat; 3%nat; 4%nat] ->
  exists t, value_text rle_zlib int_str dc_opts rc_read (nth i vals 0) t /\ clean 44 t.
Proof.
  assert (CL : forall t, forallb (fun c => negb ((c =? 44) || (c =? 10) || (c =? 34))) t = true -> clean 44 t).
  { intros t H c I. rewrite forallb_forall in H. specialize (H c I). lia. }
  intros vals V i I. cbn in V, I. destruct V as [<-|[<-|[<-|[]]]]; (destruct I as [<-|[<-|[<-|[<-|[<-|[]]]]]]); cbn [nth];
    first [eexists; split; [apply vt_number; [ans|ans|left; reflexivity]|apply CL; vm_compute; reflexivity]
          |eexists; split; [eapply vt_special; [ans|ans|vm_compute; reflexivity]|apply CL; vm_compute; reflexivity]].
Qed.
Example C60_case : exists text st' names vs rows, csv_symbol rle_zlib int_str 4 dc_opts 2 rc_read = Done (text, st') /\
  read_lines 44 text = [names ++ vs] ++ rows /\ names_for [s2z "*"; s2z "*"] names /\ value_names dc_opts dt_var vs /\
  Forall2 (row_fields rle_zlib int_str dc_opts rc_read 2 dt_var) rc_raw rows.
Proof.
  refine (C60_csv rle_zlib int_str dc_opts rc_read 2 (s2z "v") 2 dt_var rc_values rc_records 1 [s2z "*"; s2z "*"] rc_raw 4
    (wrote_now _ _ _ _ _ _ _ (or_introl rc_wrote)) _ _ _ _ _ _ _ _ _ _ rc_reads _ _).
  - left. discriminate.
  - exists 0. split; [lia|ans].
  - split; [lia|ans].
  - discriminate.
  - ans.
  - reflexivity.
  - assert (F : name_fits (s2z "*")) by (split; [vm_compute; discriminate|intros c I; cbn in I; destruct I as [<-|[]]; lia]). constructor; [exact F|]. constructor; [exact F|constructor].
  - right. left. reflexivity.
  - reflexivity.
  - left. reflexivity.
  - apply Forall_forall. intros [[af ks] vals] I. assert (V : In vals (List.map snd rc_raw)) by (apply in_map_iff; exists (af, ks, vals); split; [reflexivity|exact I]).
    pose proof (rc_shown vals V) as RS. assert (F : exists vs, Forall2 (fun i => value_text rle_zlib int_str dc_opts rc_read (nth i vals 0)) [0%nat; 1%nat; 2%nat; 3%nat; 4%nat] vs /\ Forall (clean 44) vs).
    { revert RS. generalize [0%nat; 1%nat; 2%nat; 3%nat; 4%nat]. induction l as [|i l IH]; intros RS; [exists []; split; constructor|]. destruct (IH (fun i I => RS i (or_intror I))) as (vs & F & C). destruct (RS i (or_introl eq_refl)) as (t & T & CT). exists (t :: vs). split; constructor; assumption. }
    destruct F as (vs & F & C). exists vs. split; [|split; [discriminate|intros _; exact C]]. split; [intros [X _]; discriminate X|]. intros _. split; [intros _; exact F|]. intros NA. exfalso. apply NA. split; [left; reflexivity|reflexivity].
  - cbn. lia.
Qed.
(** The text itself, with the numbers as [int_str] writes their bits. *)
Example C60_case_text : exists st', csv_symbol rle_zlib (fun _ => s2z "#") 4 dc_opts 2 rc_read = Done
  (List.map (fun c => if c =? 39 then 34 else c) (s2z "'Dim1','Dim2','Val','Marginal','Lower','Upper','Scale'" ++ [10] ++
   s2z "'a','B',#,n/a,+Inf,-Inf,#" ++ [10] ++ s2z "'a','c',Undf,n/a,+Inf,-Inf,Eps" ++ [10] ++ s2z "'B','a',#,#,#,#,#" ++ [10]), st').
Proof. ans. Qed.
