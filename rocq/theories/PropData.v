(** * C65: the data statements that gdxdump writes *)

From Coq Require Import String Permutation Sorted.
From Verif Require Import Base Prim Values Records LinkedData StrHash IntMap Strings AStream BufStream State
  FileImage ApiCore ApiFile ApiWrite ApiRead Api FileFacts BlockFacts StreamFacts OpenFacts DicInv WriteInv WriteSteps Journal WriteCalls WriteTrace
  Footprint SessInv FileFlow Sessions Vocab PropErr Reopen ReadFacts ReadRecs ReadLoops Cases PropNames PropMeta Segment PropStruct PropTexts
  LabelFacts Contents Wrote PropLabels Readers PropRead Dump PropDump PropTable DumpData.
Open Scope Z_scope.
Open Scope list_scope.

(** ** Specification *)

(** *** A reader of data statements *)

(** Blanks and line feeds separate.  A period joins the labels of an index, a comma ends an
    item.  A text in quotes ends with the same quote; any other text ends with a blank, a
    line feed or a comma. *)
Inductive token := t_dot | t_comma | t_text (s : str).
Inductive tmode := m_none | m_word | m_quote (q : Z).
Fixpoint toks (m : tmode) (cur s : str) : list token :=
  match s with
  | [] => match m with m_none => [] | _ => [t_text cur] end
  | c :: r =>
      match m with
      | m_quote q => if c =? q then t_text cur :: toks m_none [] r else toks m (cur ++ [c]) r
      | m_word =>
          if (c =? 32) || (c =? 10) then t_text cur :: toks m_none [] r
          else if c =? 44 then t_text cur :: t_comma :: toks m_none [] r
          else toks m_word (cur ++ [c]) r
      | m_none =>
          if (c =? 32) || (c =? 10) then toks m_none [] r
          else if c =? 44 then t_comma :: toks m_none [] r
          else if c =? 46 then t_dot :: toks m_none [] r
          else if (c =? 39) || (c =? 34) then toks (m_quote c) [] r
          else toks m_word [c] r
      end
  end.
Fixpoint split_items (ts : list token) : list (list token) :=
  match ts with
  | [] => [[]]
  | t_comma :: r => [] :: split_items r
  | t :: r => match split_items r with g :: gs => (t :: g) :: gs | [] => [[t]] end
  end.
Definition read_data (text : str) : list (list token) := match toks m_none [] text with [] => [] | ts => split_items ts end.

(** *** The items *)

(** a.b.c *)
Fixpoint index_tokens (ls : list str) : list token :=
  match ls with [] => [] | [a] => [t_text a] | a :: r => t_text a :: t_dot :: index_tokens r end.
Definition suffix (i : nat) : str := match i with 0%nat => s2z "L" | 1%nat => s2z "M" | 2%nat => s2z "LO" | 3%nat => s2z "UP" | _ => s2z "SCALE" end.
(** The item for the value number [i] of a record: a set shows the text of the element, a
    variable or equation the name of the value. *)
Definition item_is (z : zlib) (num : Z -> str) (o : dopts) (st : gst) (typ : Z) (r : Z * list Z * list Z) (i : nat) (ts : list token) : Prop :=
  exists ls, Forall2 (label z st) (snd (fst r)) ls /\
  (typ = dt_set -> exists t, set_text z st (nth 0 (snd r) 0) t /\ ts = index_tokens ls ++ match t with [] => [] | _ => [t_text t] end) /\
  (typ = dt_par -> exists v, value_text z num o st (nth i (snd r) 0) v /\ ts = index_tokens ls ++ [t_text v]) /\
  (typ = dt_var \/ typ = dt_equ -> exists v, value_text z num o st (nth i (snd r) 0) v /\
     ts = index_tokens ls ++ (match ls with [] => [] | _ => [t_dot] end) ++ [t_text (suffix i); t_text v]).
(** The default values: of the type of the variable (free if there is no such type). *)
Definition default_of (typ uinfo : Z) (i : nat) : Z :=
  match i with
  | 0%nat | 1%nat => 0
  | 2%nat => if typ =? dt_var then (if (uinfo =? 4) || (uinfo =? 5) || (uinfo <? 0) || (9 <? uinfo) then SV_MINF else if (uinfo =? 8) || (uinfo =? 9) then d_one else 0) else 0
  | 3%nat => if typ =? dt_var then (if (uinfo =? 0) || (uinfo =? 4) then 0 else if uinfo =? 1 then d_one else SV_PINF) else 0
  | _ => d_one
  end.
(** Values that are left out if default values are: those of a set, of a scalar and the
    bounds of equations are always shown. *)
Definition hidden (filt : bool) (typ dim uinfo : Z) (vals : list Z) (i : nat) : Prop :=
  filt = true /\ typ <> dt_set /\ ~ (typ = dt_par /\ dim = 0) /\ ~ (typ = dt_equ /\ (i = 2%nat \/ i = 3%nat)) /\ feqb (nth i vals 0) (default_of typ uinfo i) = true.
(** The items of a record, in this order. *)
Inductive shown_items (P : nat -> Prop) (Q : nat -> list token -> Prop) : list nat -> list (list token) -> Prop :=
| si_nil : shown_items P Q [] []
| si_hidden : forall i l is, P i -> shown_items P Q l is -> shown_items P Q (i :: l) is
| si_shown : forall i l ts is, ~ P i -> Q i ts -> shown_items P Q l is -> shown_items P Q (i :: l) (ts :: is).
Definition record_items (z : zlib) (num : Z -> str) (filt : bool) (o : dopts) (st : gst) (typ dim uinfo : Z) (r : Z * list Z * list Z) (is : list (list token)) : Prop :=
  shown_items (hidden filt typ dim uinfo (snd r)) (item_is z num o st typ r) (if is_ve typ then [0; 1; 2; 3; 4]%nat else [0%nat]) is.

(** A text that needs no quotes. *)
Definition word (s : str) : Prop :=
  (match s with [] => False | c :: _ => c <> 39 /\ c <> 34 /\ c <> 46 end) /\ forall c, In c s -> c <> 32 /\ c <> 10 /\ c <> 44.
(** A text of an element: no control characters, at most one kind of quotes (the library
    stores no others), and it does not begin with a quote or a period. *)
Definition plain_text (t : str) : Prop :=
  (forall c, In c t -> 32 <= c) /\ ~ (In 39 t /\ In 34 t) /\ match t with [] => True | c :: _ => c <> 39 /\ c <> 34 /\ c <> 46 end.
(** Every index has a label and every value can be written. *)
Definition can_write (z : zlib) (num : Z -> str) (o : dopts) (st : gst) (typ : Z) (r : Z * list Z * list Z) : Prop :=
  Forall (fun k => exists s, label z st k s) (snd (fst r)) /\
  (typ = dt_set -> exists t, set_text z st (nth 0 (snd r) 0) t /\ plain_text t) /\
  (typ <> dt_set -> forall i, In i (if is_ve typ then [0; 1; 2; 3; 4]%nat else [0%nat]) -> exists v, value_text z num o st (nth i (snd r) 0) v /\ word v).

(** ** Reading what was written *)

Definition ends (rest : str) : Prop := match rest with [] => True | c :: _ => c = 32 \/ c = 10 \/ c = 44 end.
(** [t] is read as [ts], whatever follows; or if what follows ends a word. *)
Definition reads0 (t : str) (ts : list token) : Prop := forall rest, toks m_none [] (t ++ rest) = ts ++ toks m_none [] rest.
Definition reads1 (t : str) (ts : list token) : Prop := forall rest, ends rest -> toks m_none [] (t ++ rest) = ts ++ toks m_none [] rest.

Lemma reads01 : forall t ts, reads0 t ts -> reads1 t ts.
Proof. intros t ts H rest _. apply H. Qed.
Lemma reads0_app : forall a b x y, reads0 a x -> reads0 b y -> reads0 (a ++ b) (x ++ y).
Proof. intros a b x y A B rest. rewrite <- !app_assoc, A, B. reflexivity. Qed.
Lemma reads1_app : forall a b x y, reads0 a x -> reads1 b y -> reads1 (a ++ b) (x ++ y).
Proof. intros a b x y A B rest E. rewrite <- !app_assoc, A, (B rest E). reflexivity. Qed.
Lemma reads0_nil : reads0 [] [].
Proof. intros rest. reflexivity. Qed.

Lemma toks_quote : forall q s cur rest, ~ In q s -> toks (m_quote q) cur (s ++ q :: rest) = t_text (cur ++ s) :: toks m_none [] rest.
Proof.
  intros q. induction s as [|c s IH]; intros cur rest N; cbn [app toks].
  - rewrite Z.eqb_refl, app_nil_r. reflexivity.
  - destruct (Z.eqb_spec c q) as [->|NE]; [exfalso; apply N; left; reflexivity|]. rewrite IH by (intros X; apply N; right; exact X). rewrite <- app_assoc. reflexivity.
Qed.
Lemma qq_cases : forall s, ~ (In 39 s /\ In 34 s) -> (qq s = 39 \/ qq s = 34) /\ ~ In (qq s) s.
Proof.
  intros s N. unfold qq. destruct (existsb _ s) eqn:E.
  - apply existsb_exists in E. destruct E as (c & I & E). apply Z.eqb_eq in E. subst c. split; [right; reflexivity|]. intros X. apply N. split; assumption.
  - split; [left; reflexivity|]. intros X. assert (Y : existsb (fun c => c =? 39) s = true) by (apply existsb_exists; exists 39; split; [exact X|reflexivity]). congruence.
Qed.
Lemma read_quoted : forall s, ~ (In 39 s /\ In 34 s) -> reads0 (quoted s) [t_text s].
Proof.
  intros s N rest. destruct (qq_cases s N) as [Q NI]. unfold quoted. cbn [app]. rewrite <- app_assoc. cbn [app toks].
  assert (E : (qq s =? 32) || (qq s =? 10) = false /\ (qq s =? 44) = false /\ (qq s =? 46) = false /\ (qq s =? 39) || (qq s =? 34) = true) by (destruct Q as [-> | ->]; repeat split; reflexivity).
  destruct E as (-> & -> & -> & ->). rewrite toks_quote by exact NI. reflexivity.
Qed.
Lemma toks_word : forall s cur rest, (forall c, In c s -> c <> 32 /\ c <> 10 /\ c <> 44) -> ends rest -> toks m_word cur (s ++ rest) = t_text (cur ++ s) :: toks m_none [] rest.
Proof.
  induction s as [|c s IH]; intros cur rest C E; cbn [app].
  - rewrite app_nil_r. destruct rest as [|c rest]; [reflexivity|]. cbn [ends] in E. cbn [toks]. destruct E as [->|[->| ->]]; reflexivity.
  - cbn [toks]. destruct (C c (or_introl eq_refl)) as (C1 & C2 & C3). destruct (Z.eqb_spec c 32); [lia|]. destruct (Z.eqb_spec c 10); [lia|]. destruct (Z.eqb_spec c 44); [lia|]. cbn [orb].
    rewrite IH by (try exact E; intros x X; apply C; right; exact X). rewrite <- app_assoc. reflexivity.
Qed.
Lemma read_word : forall s, word s -> reads1 s [t_text s].
Proof.
  intros [|c s] [F C] rest E; [destruct F|]. cbn [app toks]. destruct (C c (or_introl eq_refl)) as (C1 & C2 & C3). destruct F as (F1 & F2 & F3).
  destruct (Z.eqb_spec c 32); [lia|]. destruct (Z.eqb_spec c 10); [lia|]. destruct (Z.eqb_spec c 44); [lia|]. destruct (Z.eqb_spec c 46); [lia|]. destruct (Z.eqb_spec c 39); [lia|]. destruct (Z.eqb_spec c 34); [lia|]. cbn [orb].
  rewrite toks_word by (try exact E; intros x X; apply C; right; exact X). reflexivity.
Qed.
Lemma read_blank : reads0 [32] [].
Proof. intros rest. reflexivity. Qed.
Lemma read_dot : reads0 [46] [t_dot].
Proof. intros rest. reflexivity. Qed.
Lemma read_between : forall typ dim, reads0 (between typ dim) [t_comma].
Proof. intros typ dim rest. unfold between. destruct (_ || _); reflexivity. Qed.
Lemma between_ends : forall typ dim x, ends (between typ dim ++ x).
Proof. intros. cbn. auto. Qed.

Lemma read_labels : forall ls, Forall (fun s => ~ (In 39 s /\ In 34 s)) ls -> reads0 (join 46 (List.map quoted ls)) (index_tokens ls).
Proof.
  induction ls as [|a ls IH]; intros F; [apply reads0_nil|]. inversion F as [|? ? F1 F2]; subst. cbn [List.map]. rewrite join_cons. destruct ls as [|b ls].
  - cbn [List.map index_tokens]. rewrite app_nil_r. apply read_quoted. exact F1.
  - cbn [List.map] in *. change (index_tokens (a :: b :: ls)) with ([t_text a] ++ [t_dot] ++ index_tokens (b :: ls)). apply reads0_app; [apply read_quoted; exact F1|].
    apply (reads0_app [46] _ [t_dot]); [apply read_dot|]. apply IH. exact F2.
Qed.

(** Texts of elements. *)
Lemma needs_none : forall s, needs_quotes s = false -> forall c, In c s -> c <> 32 /\ c <> 44.
Proof.
  induction s as [|c s IH]; intros N x I; [destruct I|]. cbn [needs_quotes] in N. apply Bool.orb_false_iff in N. destruct N as [N1 N2]. apply Bool.orb_false_iff in N1. destruct N1 as [N1 _].
  destruct I as [<-|I]; [|apply IH; assumption]. unfold special_char in N1. cbn [existsb] in N1. lia.
Qed.
Lemma read_quel : forall t, plain_text t -> reads1 (quel_text t) (match t with [] => [] | _ => [t_text t] end).
Proof.
  intros t (C & N & S). unfold quel_text. apply (reads1_app [32] _ []); [apply read_blank|]. destruct (needs_quotes t) eqn:Q.
  - assert (E : match t with [] => [] | _ => [t_text t] end = [t_text t]) by (destruct t; [discriminate Q|reflexivity]). rewrite E. apply reads01, read_quoted, N.
  - destruct t as [|c t]; [apply reads01, reads0_nil|]. apply read_word. split; [exact S|]. intros x I. destruct (needs_none _ Q x I). specialize (C x I). lia.
Qed.

(** ** Items *)

Lemma reads1_then : forall a b x y, reads1 a x -> reads1 b y -> (forall rest, ends rest -> ends (b ++ rest)) -> reads1 (a ++ b) (x ++ y).
Proof. intros a b x y A B S rest E. rewrite <- !app_assoc, (A _ (S rest E)), (B rest E). reflexivity. Qed.
(** The tokens of a list of items, the first of them after a comma or not. *)
Definition tokens_of (first : bool) (is : list (list token)) : list token :=
  if first then match is with [] => [] | a :: r => a ++ concat (List.map (cons t_comma) r) end else concat (List.map (cons t_comma) is).
Definition still (first : bool) (is : list (list token)) : bool := first && match is with [] => true | _ => false end.
Lemma tokens_app : forall first a b, tokens_of first (a ++ b) = tokens_of first a ++ tokens_of (still first a) b.
Proof.
  intros [|] a b; unfold tokens_of, still; cbn [andb].
  - destruct a as [|x a]; cbn [app]; [reflexivity|]. rewrite map_app, concat_app, <- app_assoc. reflexivity.
  - rewrite map_app, concat_app. reflexivity.
Qed.
Lemma still_app : forall first a b, still (still first a) b = still first (a ++ b).
Proof. intros [|] [|x a] b; reflexivity. Qed.

Definition no_comma (ts : list token) : Prop := ~ In t_comma ts /\ ts <> [].
Lemma split_no_comma : forall ts, ~ In t_comma ts -> split_items ts = [ts].
Proof. induction ts as [|t ts IH]; intros N; [reflexivity|]. cbn [split_items]. rewrite IH by (intros X; apply N; right; exact X). destruct t; [reflexivity|exfalso; apply N; left; reflexivity|reflexivity]. Qed.
Lemma split_comma : forall a r, ~ In t_comma a -> split_items (a ++ t_comma :: r) = a :: split_items r.
Proof. induction a as [|t a IH]; intros r N; [reflexivity|]. cbn [app split_items]. rewrite IH by (intros X; apply N; right; exact X). destruct t; [reflexivity|exfalso; apply N; left; reflexivity|reflexivity]. Qed.
Lemma split_tokens : forall r a, Forall no_comma (a :: r) -> split_items (a ++ concat (List.map (cons t_comma) r)) = a :: r.
Proof.
  induction r as [|b r IH]; intros a F; inversion F as [|? ? [F1 _] F2]; subst; cbn [List.map concat]; [rewrite app_nil_r; apply split_no_comma; exact F1|].
  cbn [app]. rewrite split_comma by exact F1. f_equal. apply IH. exact F2.
Qed.
Lemma read_tokens : forall text is, reads1 text (tokens_of true is) -> Forall no_comma is -> read_data text = is.
Proof.
  intros text is R F. specialize (R [] Logic.I). rewrite !app_nil_r in R. unfold read_data. rewrite R. unfold tokens_of. destruct is as [|a r]; [reflexivity|]. inversion F as [|? ? [_ NE] _]; subst.
  destruct a as [|t a]; [contradiction|]. cbn [app]. apply (split_tokens r (t :: a) F).
Qed.

Section Items.
Context (z : zlib) (num : Z -> str) (filt : bool) (o : dopts) (DO : o_delim o = 46).

Lemma labels_read : forall st s ks, labels_inv (g_dic st) -> alike st s -> Forall (fun k => exists t, label z st k t) ks ->
  exists ls, omap (fun k => uel_string z k s) ks = Done ls /\ Forall2 (label z st) ks ls /\ Forall (fun t => ~ (In 39 t /\ In 34 t)) ls /\ bad_uels z ks s = 0.
Proof.
  intros st s ks LI A F. induction F as [|k ks (t & L) F (ls & E & F2 & Q & B)]; [exists []; repeat split; constructor|].
  pose proof L as L'. apply label_iff in L'. unfold uel_text in L'. destruct (znth (d_uels (g_dic st)) (k - 1)) as [[t' m]|] eqn:ZN; [|discriminate L']. injection L' as <-.
  assert (EU : exec z (gdxUMUelGet k) s = Done (ret_is 1 [m] [t'], s)) by (cbn [exec]; unfold um_uel_get; rewrite (proj1 (proj2 A)); cbn [d_uels set_d_names]; rewrite ZN; reflexivity).
  exists (t' :: ls). cbn [omap]. unfold uel_string at 1. rewrite EU. cbn [obind ret_is r_code r_strs hd]. change (1 =? 0) with false. cbv iota. cbn [obind]. rewrite E. cbn [obind]. split; [reflexivity|]. split; [constructor; [exact L|exact F2]|]. split.
  - constructor; [|exact Q]. destruct LI as [_ LI]. destruct (LI _ _ ZN) as [G _]. apply well_formed_iff in G. apply G.
  - unfold bad_uels in *. cbn [filter]. rewrite EU. cbn [ret_is r_code]. change (1 =? 0) with false. cbv iota. exact B.
Qed.

Lemma index_no_comma : forall ls, ~ In t_comma (index_tokens ls).
Proof. induction ls as [|a [|b ls] IH]; cbn [index_tokens]; [intros []|intros [X|[]]; discriminate X|]. intros [X|[X|X]]; [discriminate X|discriminate X|exact (IH X)]. Qed.
Lemma index_nonempty : forall ls, ls <> [] -> index_tokens ls <> [].
Proof. intros [|a [|b ls]] N; [contradiction|discriminate|discriminate]. Qed.
Lemma suffix_word : forall i, word (suffix i) /\ (In i [0; 1; 2; 3; 4]%nat -> field_name i = suffix i).
Proof.
  intros i. split.
  - destruct i as [|[|[|[|i]]]]; (split; [cbn; lia|cbn; intros c I; repeat (destruct I as [<-|I]; [lia|]); destruct I]).
  - intros I. cbn in I. repeat (destruct I as [<-|I]; [reflexivity|]). destruct I.
Qed.
Lemma elem_alike : forall st s m t, alike st s -> elem_text z st m t -> exists r s2, exec z (gdxGetElemText m) s = Done (r, s2) /\ hd [] (r_strs r) = t.
Proof.
  intros st s m t [_ [E _]] (nd & x & X). cbn [exec] in *. unfold get_elem_text in *. rewrite E. cbn [d_texts set_d_names]. destruct (d_texts (g_dic st)) as [l|]; [|inversion X; subst; eexists; eexists; split; reflexivity].
  destruct (znth l m) as [[t' n']|]; [|inversion X; subst; eexists; eexists; split; reflexivity]. eexists. eexists. split; [reflexivity|]. inversion X; subst. reflexivity.
Qed.

Lemma read_field : forall i v, word v -> reads1 (suffix i ++ [32] ++ v) [t_text (suffix i); t_text v].
Proof.
  intros i v W. change [t_text (suffix i); t_text v] with ([t_text (suffix i)] ++ [t_text v]). apply reads1_then; [apply read_word, suffix_word| |intros; left; reflexivity].
  apply (reads1_app [32] v [] [t_text v]); [apply read_blank|apply read_word; exact W].
Qed.

Lemma item_read : forall st s typ dim r i, labels_inv (g_dic st) -> alike st s -> zlen (snd (fst r)) = dim -> 0 <= typ <= dt_equ -> (typ = dt_set -> dim <> 0) -> can_write z num o st typ r -> In i (fields_of typ) ->
  exists text ts, item z num o typ dim (snd (fst r)) (snd r) i s = Done text /\ item_is z num o st typ r i ts /\ reads1 text ts /\ no_comma ts /\ bad_uels z (snd (fst r)) s = 0.
Proof.
  intros st s typ dim [[af ks] vals] i LI A ZD TY SD (CL & CT & CV) IN. cbn [fst snd] in *. destruct (labels_read st s ks LI A CL) as (ls & EL & F2 & QL & B). unfold item. rewrite EL. cbn [obind]. rewrite DO.
  pose proof (Forall2_length _ _ _ F2) as LE. pose proof (read_labels ls QL) as RL.
  destruct (Z.eq_dec typ dt_set) as [TS|NS].
  - destruct (CT TS) as (t & ST & PT). assert (NL : ls <> []) by (intros ->; apply (SD TS); unfold zlen in ZD; cbn [length] in LE; lia).
    set (tt := match t with [] => [] | _ => [t_text t] end).
    assert (X : exists v, item_value z num o typ dim vals i s = Done v /\ reads1 v tt).
    { unfold item_value. rewrite TS. change (dt_set =? dt_set) with true. cbv iota zeta. change d_zero with 0. destruct ST as [[F0 ->]|(F0 & m & R & ET)].
      - rewrite F0. exists []. split; [reflexivity|apply reads01, reads0_nil].
      - rewrite F0, R. destruct (elem_alike _ _ _ _ A ET) as (r' & s2 & E & HD). rewrite E. cbn [obind]. exists (quel_text t). split; [rewrite HD; reflexivity|]. apply read_quel. exact PT. }
    destruct X as (v & EV & RV). rewrite EV. cbn [obind]. exists (join 46 (List.map quoted ls) ++ v), (index_tokens ls ++ tt). split; [reflexivity|]. split; [|split; [apply reads1_app; assumption|split; [|exact B]]].
    + exists ls. split; [exact F2|]. split; [intros _; exists t; split; [exact ST|reflexivity]|]. split; [intros X; rewrite TS in X; discriminate X|]. intros [X|X]; rewrite TS in X; discriminate X.
    + split; [|intros X; apply app_eq_nil in X; destruct X as [X _]; exact (index_nonempty ls NL X)]. intros X. apply in_app_or in X. destruct X as [X|X]; [exact (index_no_comma ls X)|]. unfold tt in X. destruct t; [destruct X|destruct X as [X|[]]; discriminate X].
  - destruct (CV NS i IN) as (v & VT & WV). pose proof (value_written z num o st _ _ VT) as EV. assert (EV' : wr_val z num o (nth i vals 0) s = Done v) by (rewrite (alike_val z num o _ _ _ A); exact EV).
    destruct (Z.eq_dec typ dt_par) as [TP|NP].
    + exists (join 46 (List.map quoted ls) ++ 32 :: v), (index_tokens ls ++ [t_text v]). unfold item_value. rewrite TP. change (dt_par =? dt_set) with false. change (dt_par =? dt_par) with true. cbv iota. rewrite EV'. cbn [obind].
      split; [reflexivity|]. split; [|split; [apply reads1_app; [exact RL|apply (reads1_app [32] v [] [t_text v]); [apply read_blank|apply read_word; exact WV]]|split; [|exact B]]].
      * exists ls. split; [exact F2|]. split; [intros X; discriminate X|]. split; [intros _; exists v; split; [exact VT|reflexivity]|]. intros [X|X]; discriminate X.
      * split; [|intros X; apply app_eq_nil in X; destruct X as [_ X]; discriminate X]. intros X. apply in_app_or in X. destruct X as [X|[X|[]]]; [exact (index_no_comma ls X)|discriminate X].
    + assert (TVE : typ = dt_var \/ typ = dt_equ) by (unfold dt_set, dt_par, dt_var, dt_equ in *; lia). assert (IV : is_ve typ = true) by (destruct TVE as [-> | ->]; reflexivity).
      assert (IF : In i [0; 1; 2; 3; 4]%nat) by (unfold fields_of in IN; rewrite IV in IN; exact IN). pose proof (proj2 (suffix_word i) IF) as FN.
      set (dots := match ls with [] => [] | _ => [t_dot] end).
      assert (RD : reads0 (if 0 <? dim then [46] else []) dots).
      { unfold dots. destruct ls as [|a ls]; destruct (Z.ltb_spec 0 dim); try (unfold zlen in ZD; cbn [length] in LE; lia); [apply reads0_nil|apply read_dot]. }
      exists (join 46 (List.map quoted ls) ++ (if 0 <? dim then [46] else []) ++ suffix i ++ [32] ++ v), (index_tokens ls ++ dots ++ [t_text (suffix i); t_text v]).
      unfold item_value. destruct (Z.eqb_spec typ dt_set); [contradiction|]. destruct (Z.eqb_spec typ dt_par); [contradiction|]. rewrite IV, EV'. cbn [obind]. rewrite DO, FN. split; [reflexivity|]. split; [|split; [|split; [|exact B]]].
      * exists ls. split; [exact F2|]. split; [intros X; contradiction|]. split; [intros X; contradiction|]. intros _. exists v. split; [exact VT|reflexivity].
      * apply reads1_app; [exact RL|]. apply reads1_app; [exact RD|]. apply read_field. exact WV.
      * split; [|intros X; apply app_eq_nil in X; destruct X as [_ X]; apply app_eq_nil in X; destruct X as [_ X]; discriminate X]. intros X. apply in_app_or in X. destruct X as [X|X]; [exact (index_no_comma ls X)|].
        apply in_app_or in X. destruct X as [X|[X|[X|[]]]]; [unfold dots in X; destruct ls; [destruct X|destruct X as [X|[]]; discriminate X]|discriminate X|discriminate X].
Qed.

Lemma default_nth : forall typ uinfo i, typ <> dt_set -> ~ (typ = dt_equ /\ (i = 2 \/ i = 3)%nat) -> (typ = dt_par -> i = 0%nat) -> 0 <= typ <= dt_equ -> (i < 5)%nat -> nth i (dump_defaults typ uinfo) 0 = default_of typ uinfo i.
Proof.
  intros typ uinfo i NS NE NP TY LI. unfold dump_defaults. destruct (Z.eq_dec typ dt_par) as [TP|TP].
  - rewrite (NP TP). destruct (Z.eqb_spec typ dt_var); [rewrite TP in *; discriminate|]. destruct (Z.eqb_spec typ dt_equ); [rewrite TP in *; discriminate|]. reflexivity.
  - destruct (Z.eqb_spec typ dt_var) as [TV|TV].
    + destruct ((uinfo <? 0) || (9 <? uinfo)) eqn:U.
      * destruct i as [|[|[|[|[|i]]]]]; try lia; try reflexivity; unfold default_of; (destruct (Z.eqb_spec typ dt_var); [|contradiction]).
        -- rewrite <- Bool.orb_assoc, U, Bool.orb_true_r. reflexivity.
        -- destruct (Z.eqb_spec uinfo 0); [lia|]. destruct (Z.eqb_spec uinfo 4); [lia|]. destruct (Z.eqb_spec uinfo 1); [lia|]. reflexivity.
      * assert (UC : uinfo = 0 \/ uinfo = 1 \/ uinfo = 2 \/ uinfo = 3 \/ uinfo = 4 \/ uinfo = 5 \/ uinfo = 6 \/ uinfo = 7 \/ uinfo = 8 \/ uinfo = 9) by lia. rewrite TV. clear - UC LI.
        destruct i as [|[|[|[|[|i]]]]]; [| | | | |lia]; (repeat (destruct UC as [->|UC]; [reflexivity|])); subst; reflexivity.
    + destruct (Z.eqb_spec typ dt_equ) as [TE|TE]; [|unfold dt_set, dt_par, dt_var, dt_equ in *; lia].
      destruct i as [|[|[|[|[|i]]]]]; try lia; try (exfalso; apply NE; auto; fail);
      (assert (UC : exists k, 53 + (if (uinfo <? 0) || (6 <? uinfo) then 0 else uinfo) = 53 + k /\ (k = 0 \/ k = 1 \/ k = 2 \/ k = 3 \/ k = 4 \/ k = 5 \/ k = 6)) by (eexists; split; [reflexivity|destruct ((uinfo <? 0) || (6 <? uinfo)) eqn:U; lia]));
      destruct UC as (k & -> & UC); repeat (destruct UC as [->|UC]; [reflexivity|]); subst; reflexivity.
Qed.
Lemma left_out_iff : forall typ dim uinfo vals i, 0 <= typ <= dt_equ -> In i (fields_of typ) -> left_out filt typ dim (dump_defaults typ uinfo) vals i = true <-> hidden filt typ dim uinfo vals i.
Proof.
  intros typ dim uinfo vals i TY IN. unfold left_out, hidden.
  assert (LI : (i < 5)%nat) by (unfold fields_of in IN; destruct (is_ve typ); cbn in IN; lia).
  assert (NP : typ = dt_par -> i = 0%nat) by (intros ->; unfold fields_of in IN; change (is_ve dt_par) with false in IN; cbn in IN; lia).
  split.
  - intros H. apply Bool.andb_true_iff in H. destruct H as [H H4]. apply Bool.andb_true_iff in H. destruct H as [H H3]. apply Bool.andb_true_iff in H. destruct H as [H1 H2]. apply Bool.andb_true_iff in H3. destruct H3 as [H3 H5].
    assert (A1 : typ <> dt_set) by (intros ->; discriminate H2). assert (A2 : ~ (typ = dt_equ /\ (i = 2 \/ i = 3)%nat)) by (intros [-> [-> | ->]]; discriminate H4).
    split; [exact H3|]. split; [exact A1|]. split; [intros [-> ->]; discriminate H1|]. split; [exact A2|]. rewrite <- default_nth by assumption. exact H5.
  - intros (HF & A1 & A2 & A3 & E). rewrite <- default_nth in E by assumption. rewrite HF, E. destruct (Z.eqb_spec typ dt_set); [contradiction|]. cbn [negb andb].
    destruct (Z.eqb_spec dim 0); destruct (Z.eqb_spec typ dt_par); cbn [andb negb]; try (exfalso; apply A2; split; assumption); (destruct (Z.eqb_spec typ dt_equ); cbn [negb orb]; [|reflexivity]);
    (destruct (Nat.eqb_spec i 2); [exfalso; apply A3; split; [assumption|left; assumption]|]); (destruct (Nat.eqb_spec i 3); [exfalso; apply A3; split; [assumption|right; assumption]|]); reflexivity.
Qed.

Lemma items_read : forall st s typ dim uinfo r, labels_inv (g_dic st) -> alike st s -> zlen (snd (fst r)) = dim -> 0 <= typ <= dt_equ -> (typ = dt_set -> dim <> 0) -> can_write z num o st typ r ->
  forall fs first, (forall i, In i fs -> In i (fields_of typ)) ->
  exists text is, items z num filt o typ dim (dump_defaults typ uinfo) (snd (fst r)) (snd r) fs first s = Done (text, still first is, 0) /\
    shown_items (hidden filt typ dim uinfo (snd r)) (item_is z num o st typ r) fs is /\ reads1 text (tokens_of first is) /\ Forall no_comma is /\ (first = false -> forall rest, ends rest -> ends (text ++ rest)) /\ (is = [] -> text = []).
Proof.
  intros st s typ dim uinfo r LI A ZD TY SD CW. induction fs as [|i fs IH]; intros first IN; cbn [items].
  - exists [], []. split; [unfold still; rewrite Bool.andb_true_r; reflexivity|]. split; [constructor|]. split; [destruct first; apply reads01, reads0_nil|]. split; [constructor|]. split; [intros _ rest E; exact E|reflexivity].
  - pose proof (left_out_iff typ dim uinfo (snd r) i TY (IN i (or_introl eq_refl))) as LO. destruct (left_out _ _ _ _ _ _).
    + destruct (IH first (fun j J => IN j (or_intror J))) as (text & is & E & SH & R & NC & EN & TN). exists text, is. split; [exact E|]. split; [constructor; [apply LO; reflexivity|exact SH]|]. split; [exact R|]. split; [exact NC|]. split; [exact EN|exact TN].
    + destruct (IH false (fun j J => IN j (or_intror J))) as (text & is & E & SH & R & NC & EN & TN). destruct (item_read st s typ dim r i LI A ZD TY SD CW (IN i (or_introl eq_refl))) as (t & ts & EI & II & RI & NI & B).
      rewrite EI. cbn [obind]. rewrite E. cbn [obind]. rewrite B. exists ((if first then [] else between typ dim) ++ t ++ text), (ts :: is).
      split; [destruct first; reflexivity|]. split; [apply si_shown; [intros X; apply LO in X; discriminate X|exact II|exact SH]|].
      assert (RT : reads1 (t ++ text) (ts ++ concat (List.map (cons t_comma) is))) by (apply reads1_then; [exact RI|exact R|exact (EN eq_refl)]).
      split; [|split; [constructor; [exact NI|exact NC]|]].
      * destruct first; [exact RT|]. unfold tokens_of. cbn [List.map concat]. apply (reads1_app (between typ dim) (t ++ text) [t_comma]); [apply read_between|exact RT].
      * split; [intros -> rest _; rewrite <- app_assoc; apply between_ends|intros X; discriminate X].
Qed.

Lemma data_read : forall st typ dim uinfo, labels_inv (g_dic st) -> 0 <= typ <= dt_equ -> (typ = dt_set -> dim <> 0) ->
  forall l s e, gives z st l s e -> Forall (fun r => zlen (snd (fst r)) = dim /\ can_write z num o st typ r) l -> forall fuel first, (length l < fuel)%nat ->
  exists text iss, data_lines z num filt o fuel typ dim (dump_defaults typ uinfo) first s = Done (text, 0, e) /\
    Forall2 (record_items z num filt o st typ dim uinfo) l iss /\ reads1 text (tokens_of first (concat iss)) /\ Forall no_comma (concat iss) /\ (first = false -> forall rest, ends rest -> ends (text ++ rest)).
Proof.
  intros st typ dim uinfo LI TY SD l s e G. induction G as [s e X A M W|s s1 x l e X A G IH]; intros FA fuel first FU; (destruct fuel as [|fuel]; [cbn [length] in FU; lia|]).
  - exists [], []. cbn [data_lines]. rewrite X. cbn [obind ret r_code]. split; [reflexivity|]. split; [constructor|]. split; [destruct first; apply reads01, reads0_nil|]. split; [constructor|]. intros _ rest E. exact E.
  - inversion FA as [|x' l' [ZD CW] FA']; subst x' l'. destruct (items_read st s1 typ dim uinfo x LI A ZD TY SD CW (fields_of typ) first (fun i I => I)) as (t & is & EI & SH & RI & NI & EN & TN).
    destruct (IH FA' fuel (still first is) ltac:(cbn [length] in FU; lia)) as (text & iss & E & F2 & RA & NA & EA). exists (t ++ text), (is :: iss). cbn [data_lines]. rewrite X. destruct x as [[af ks] vals]. cbn [fst snd] in *.
    unfold raw_resp, ret_iv. cbn [obind r_code r_ints r_vals tl fst snd]. change (1 =? 0) with false. cbv iota. rewrite EI. cbn [obind]. rewrite E. cbn [obind]. split; [reflexivity|]. split; [constructor; [exact SH|exact F2]|].
    split; [|split; [cbn [concat]; apply Forall_app; split; assumption|]].
    + cbn [concat]. rewrite tokens_app. destruct (still first is) eqn:ST.
      * unfold still in ST. apply Bool.andb_true_iff in ST. destruct ST as [-> ST]. destruct is; [|discriminate ST]. apply reads1_app; [|exact RA].
        rewrite (TN eq_refl). apply reads0_nil.
      * apply reads1_then; [exact RI|exact RA|exact (EA eq_refl)].
    + intros -> rest ER. rewrite <- app_assoc. apply EN; [reflexivity|]. apply EA; [reflexivity|exact ER].
Qed.
End Items.

(** The text that gdxdump writes for the data of a symbol holds exactly its records: a reader
    of data statements finds, in the order of the records, for each value that is shown one
    item with the labels of the record and the value.  Missing: comments, labels that are
    missing, texts that begin with a quote or a period (see [C65_quoted_text_refuted]), the
    declaration in front, and delimiters other than the period. *)
Theorem C65_data_partial : forall z num filt o st n name dim typ wt recs cnt uinfo expl l fuel,
  wrote z st n dim typ wt recs -> some_record dim recs -> no_numbering z st -> symbol z st n name dim typ -> (typ = dt_set -> dim <> 0) ->
  answers z st (gdxSymbolInfoX n) (ret_is 1 [cnt; uinfo] [expl]) -> cnt <> 0 -> answers z st (gdxSymbolGetComment n 1) (ret_s 0 [[]]) -> o_delim o = 46 ->
  reads_all z st n l -> Forall (can_write z num o st typ) l -> (length l < fuel)%nat ->
  exists text st' iss, data_symbol z num filt o fuel n st = Done (text, st') /\ read_data text = concat iss /\ Forall2 (record_items z num filt o st typ dim uinfo) l iss.
Proof.
  intros z num filt o st n name dim typ wt recs cnt uinfo expl l fuel W SR NN SY SD (sx & IX) NC (sc & GC) DO RA CW FU.
  destruct (wrote_holds _ _ _ _ _ _ _ W) as (H & TB & MO & _). pose proof (no_numbering_env _ _ NN) as NX. pose proof (reads_gives _ _ _ _ _ _ _ _ _ _ H TB NX SR MO RA) as ->.
  destruct (pass _ _ _ _ _ _ _ _ _ H TB NX SR MO) as (r & s1 & e & E1 & G). destruct H as (_ & GR & DB & TY & _).
  pose proof (proj1 (wrote_labels _ _ _ _ _ _ _ W)) as LI. destruct SY as (N0 & ss & SI).
  assert (FA : Forall (fun r => zlen (snd (fst r)) = dim /\ can_write z num o st typ r) (as_read (sees st wt) None recs)).
  { clear - CW GR DB. revert CW. generalize (@None (list Z)). induction GR as [|[k v] recs [G _] GR IH]; intros prev CW; cbn [as_read] in *; constructor; inversion CW; subst; [|apply IH; assumption].
    split; [|assumption]. cbn [fst snd] in *. unfold zlen. lia. }
  destruct (data_read z num filt o DO st typ dim uinfo LI TY SD _ _ _ G FA fuel true FU) as (text & iss & ED & F2 & RT & NO & _).
  destruct (gives_alike _ _ _ _ _ G) as (AE & ME & WE). destruct (PropTable.read_done_again z e ME WE) as (e2 & EE & _ & _).
  exists text, e2, iss. split; [|split; [apply read_tokens; assumption|exact F2]].
  unfold data_symbol. rewrite SI. cbn [obind ret_is ret_i ret_s r_ints r_strs nth]. rewrite IX. cbn [obind ret_is r_ints nth]. cbv zeta. destruct (Z.eqb_spec cnt 0); [contradiction|].
  destruct fuel as [|fuel]; [lia|]. cbn [comment_lines]. rewrite GC. cbn [obind ret_s r_code]. change (0 =? 0) with true. cbv iota. cbn [obind]. rewrite E1. cbn [obind]. rewrite ED. cbn [obind]. rewrite EE. cbn [obind].
  change (0 <? 0) with false. cbv iota. rewrite app_nil_r. reflexivity.
Qed.

(** ** Cases *)

Definition dd_opts : dopts := mkDopts 46 true None false true false None (Some (s2z "n/a")) None None None None.
Lemma dd_shown : forall vals, In vals (List.map snd rc_raw) -> forall i, In i [0%nat; 1%nat; 2%nat; 3%nat; 4%nat] ->
  exists t, value_text rle_zlib int_str dd_opts rc_read (nth i vals 0) t /\ word t.
Proof.
  assert (CL : forall c t, negb ((c =? 39) || (c =? 34) || (c =? 46)) = true -> forallb (fun c => negb ((c =? 44) || (c =? 10) || (c =? 32))) (c :: t) = true -> word (c :: t)).
  { intros c t F H. split; [lia|]. intros x I. rewrite forallb_forall in H. specialize (H x I). lia. }
  assert (CW : forall t, match t with [] => false | c :: _ => negb ((c =? 39) || (c =? 34) || (c =? 46)) end && forallb (fun c => negb ((c =? 44) || (c =? 10) || (c =? 32))) t = true -> word t).
  { intros [|c t] H; [discriminate H|]. apply Bool.andb_true_iff in H. destruct H. apply CL; assumption. }
  intros vals V i I. cbn in V, I. destruct V as [<-|[<-|[<-|[]]]]; (destruct I as [<-|[<-|[<-|[<-|[<-|[]]]]]]); cbn [nth];
    first [eexists; split; [apply vt_number; [ans|ans|left; reflexivity]|apply CW; vm_compute; reflexivity]
          |eexists; split; [eapply vt_special; [ans|ans|vm_compute; reflexivity]|apply CW; vm_compute; reflexivity]].
Qed.
Example C65_case : exists text st' iss, data_symbol rle_zlib int_str true dd_opts 4 2 rc_read = Done (text, st') /\
  read_data text = concat iss /\ Forall2 (record_items rle_zlib int_str true dd_opts rc_read dt_var 2 3) rc_raw iss.
Proof.
  refine (C65_data_partial rle_zlib int_str true dd_opts rc_read 2 (s2z "v") 2 dt_var rc_values rc_records 3 3 (s2z "a variable") rc_raw 4
    (wrote_now _ _ _ _ _ _ _ (or_introl rc_wrote)) _ _ _ _ _ _ _ _ rc_reads _ _).
  - left. discriminate.
  - exists 0. split; [lia|ans].
  - split; [lia|ans].
  - discriminate.
  - ans.
  - lia.
  - ans.
  - reflexivity.
  - apply Forall_forall. intros [[af ks] vals] I. assert (V : In vals (List.map snd rc_raw)) by (apply in_map_iff; exists (af, ks, vals); split; [reflexivity|exact I]).
    pose proof (dd_shown vals V) as RS. split; [|split; [discriminate|intros _; exact RS]].
    cbn in I. destruct I as [E|[E|[E|[]]]]; injection E as <- <- <-; (repeat constructor; eexists; exists (-1); ans).
  - cbn. lia.
Qed.
(** The text itself: values that are the default values of a positive variable are left out. *)
Example C65_case_text : exists st', data_symbol rle_zlib (fun _ => s2z "#") true dd_opts 4 2 rc_read = Done
  (s2z "'a'.'B'.L #, " ++ [10] ++ s2z "'a'.'B'.M n/a, " ++ [10] ++ s2z "'a'.'B'.LO +Inf, " ++ [10] ++ s2z "'a'.'B'.UP -Inf, " ++ [10] ++ s2z "'a'.'B'.SCALE #, " ++ [10] ++
   s2z "'a'.'c'.L Undf, " ++ [10] ++ s2z "'a'.'c'.M n/a, " ++ [10] ++ s2z "'a'.'c'.LO +Inf, " ++ [10] ++ s2z "'a'.'c'.UP -Inf, " ++ [10] ++ s2z "'a'.'c'.SCALE Eps, " ++ [10] ++
   s2z "'B'.'a'.M #, " ++ [10] ++ s2z "'B'.'a'.LO #, " ++ [10] ++ s2z "'B'.'a'.UP #", st').
Proof. ans. Qed.

(** The condition on the first character of a text is needed: the text 'a', with the quotes,
    is written as it is, and read as a. *)
Definition dq_calls : list call :=
  [gdxOpenWriteEx (s2z "q.gdx") (s2z "test") 0; gdxAddSetText (s2z "'a'"); gdxDataWriteStrStart (s2z "i") (s2z "") 1 dt_set 0; gdxDataWriteStr [s2z "x"] [dbl_1]; gdxDataWriteDone; gdxClose;
   gdxOpenReadEx (s2z "q.gdx") 0].
Definition dq_read : gst := state_of (run rle_zlib dq_calls (new_object [])).
Lemma dq_reads : reads_all rle_zlib dq_read 1 [(1, [1], [dbl_1])].
Proof.
  exists (state_of (exec rle_zlib (gdxDataReadRawStart 1) dq_read)).
  exists (state_of (run rle_zlib (repeat gdxDataReadRaw 1) (state_of (exec rle_zlib (gdxDataReadRawStart 1) dq_read)))).
  eexists. split; [vm_compute; reflexivity|]. split; [vm_compute; reflexivity|]. vm_compute. reflexivity.
Qed.
Theorem C65_quoted_text_refuted : exists num o rs st text st', run rle_zlib dq_calls (new_object []) = Done (rs, st) /\
  symbol rle_zlib st 1 (s2z "i") 1 dt_set /\ reads_all rle_zlib st 1 [(1, [1], [dbl_1])] /\ label rle_zlib st 1 (s2z "x") /\ set_text rle_zlib st dbl_1 (s2z "'a'") /\
  o_delim o = 46 /\ data_symbol rle_zlib num true o 2 1 st = Done (text, st') /\ read_data text = [[t_text (s2z "x"); t_text (s2z "a")]].
Proof.
  exists int_str, dd_opts, (answer_of (run rle_zlib dq_calls (new_object []))), dq_read, (s2z "'x' 'a'"), (state_of (data_symbol rle_zlib int_str true dd_opts 2 1 dq_read)).
  split; [vm_compute; reflexivity|]. split; [split; [lia|ans]|]. split; [exact dq_reads|]. split; [exists (-1); ans|]. split; [right; split; [reflexivity|]; exists 1; split; [vm_compute; reflexivity|exists 0; ans]|].
  split; [reflexivity|]. split; [vm_compute; reflexivity|vm_compute; reflexivity].
Qed.

(** A set with texts, one of which needs quotes, and an element without. *)
Definition dt_calls : list call :=
  [gdxOpenWriteEx (s2z "q.gdx") (s2z "test") 0; gdxAddSetText (s2z "a text"); gdxAddSetText (s2z "word"); gdxDataWriteStrStart (s2z "i") (s2z "") 2 dt_set 0;
   gdxDataWriteStr [s2z "x"; s2z "it's"] [dbl_1]; gdxDataWriteStr [s2z "x"; s2z "y"] [0]; gdxDataWriteStr [s2z "y"; s2z "x"] [d_two]; gdxDataWriteDone; gdxClose; gdxOpenReadEx (s2z "q.gdx") 0].
Example C65_set_text : exists text st', data_symbol rle_zlib int_str true dd_opts 4 1 (state_of (run rle_zlib dt_calls (new_object []))) = Done (text, st') /\
  text = s2z "'x'." ++ [34] ++ s2z "it's" ++ [34] ++ s2z " 'a text', " ++ [10] ++ s2z "'x'.'y', " ++ [10] ++ s2z "'y'.'x' word" /\
  read_data text = [[t_text (s2z "x"); t_dot; t_text (s2z "it's"); t_text (s2z "a text")]; [t_text (s2z "x"); t_dot; t_text (s2z "y")]; [t_text (s2z "y"); t_dot; t_text (s2z "x"); t_text (s2z "word")]].
Proof. eexists. eexists. split; [vm_compute; reflexivity|]. split; vm_compute; reflexivity. Qed.

Print Assumptions C65_data_partial.
Print Assumptions C65_quoted_text_refuted.
