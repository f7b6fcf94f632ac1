(** * C66: the lists of labels and symbols that gdxdump writes *)

From Coq Require Import String Permutation Sorted.
From Verif Require Import DomRefs.
From Verif Require Import Base Prim Values Records LinkedData StrHash IntMap Strings AStream BufStream State
  FileImage ApiCore ApiFile ApiWrite ApiRead Api FileFacts BlockFacts StreamFacts OpenFacts DicInv WriteInv WriteSteps Journal WriteCalls WriteTrace
  Footprint SessInv FileFlow Sessions Vocab PropErr Reopen ReadFacts ReadRecs ReadLoops Cases PropNames PropMeta Segment PropStruct PropTexts
  LabelFacts Contents Wrote PropLabels Readers PropRead Dump PropDump DumpData PropData DumpList.
Open Scope Z_scope.
Open Scope list_scope.

(** ** Specification *)

(** *** A reader of statements *)

(** Blanks and line feeds separate.  The characters . , / ; ( ) stand for themselves.  A text
    in quotes ends with the same quote, any other text where it meets one of the others. *)
Inductive part := p_mark (c : Z) | p_text (s : str).
Definition mark (c : Z) : bool := existsb (fun d => c =? d) [46; 44; 47; 59; 40; 41].
Definition space (c : Z) : bool := (c =? 32) || (c =? 10).
Fixpoint lex (m : tmode) (cur s : str) : list part :=
  match s with
  | [] => match m with m_none => [] | _ => [p_text cur] end
  | c :: r =>
      match m with
      | m_quote q => if c =? q then p_text cur :: lex m_none [] r else lex m (cur ++ [c]) r
      | m_word => if space c then p_text cur :: lex m_none [] r else if mark c then p_text cur :: p_mark c :: lex m_none [] r else lex m_word (cur ++ [c]) r
      | m_none =>
          if space c then lex m_none [] r else if mark c then p_mark c :: lex m_none [] r
          else if (c =? 39) || (c =? 34) then lex (m_quote c) [] r else lex m_word [c] r
      end
  end.
Definition parts_of (text : str) : list part := lex m_none [] text.
(** Items with commas between them. *)
Fixpoint commas (l : list (list part)) : list part :=
  match l with [] => [] | [a] => a | a :: r => a ++ p_mark 44 :: commas r end.

(** *** What is listed *)

Fixpoint count_from (i : Z) (n : nat) : list Z := match n with O => [] | S k => i :: count_from (i + 1) k end.
(** The numbers 1, 2, ..., [k]. *)
Definition numbers (k : Z) : list Z := count_from 1 (Z.to_nat k).
Definition a_type (t : Z) (s : str) : Prop :=
  t = dt_set /\ s = s2z "Set" \/ t = dt_par /\ s = s2z "Par" \/ t = dt_var /\ s = s2z "Var" \/ t = dt_equ /\ s = s2z "Equ" \/ t = dt_alias /\ s = s2z "Alias".
(** name.dimension.type and the explanatory text. *)
Definition listed (z : zlib) (st : gst) (n : Z) (ps : list part) : Prop :=
  exists name dim typ tn cnt u t, symbol z st n name dim typ /\ a_type typ tn /\ answers z st (gdxSymbolInfoX n) (ret_is 1 [cnt; u] [t]) /\
    ps = [p_text name; p_mark 46; p_text (int_str dim); p_mark 46; p_text tn] ++ match t with [] => [] | _ => [p_text t] end.
(** name.dimension.type.domain: the names of the domain with commas, if they have at most 63
    characters together. *)
Definition domain_is (doms : list str) (t : str) : Prop :=
  let all := concat (match doms with [] => [] | d :: r => d :: List.map (fun x => s2z ", " ++ x) r end) in
  t = if zlen all <=? 63 then all else s2z "Domain exceeds 63 characters".
Definition listed_domain (z : zlib) (st : gst) (n : Z) (ps : list part) : Prop :=
  exists name dim typ tn doms t, symbol z st n name dim typ /\ a_type typ tn /\ (if 0 <? dim then exists c, answers z st (gdxSymbolGetDomainX n) (ret_s c doms) else doms = []) /\ domain_is doms t /\
    ps = [p_text name; p_mark 46; p_text (int_str dim); p_mark 46; p_text tn; p_mark 46; p_text t].

(** ** Reading what was written *)

Definition lends (rest : str) : Prop := match rest with [] => True | c :: _ => space c || mark c = true end.
Definition lex0 (t : str) (ps : list part) : Prop := forall rest, lex m_none [] (t ++ rest) = ps ++ lex m_none [] rest.
Definition lex1 (t : str) (ps : list part) : Prop := forall rest, lends rest -> lex m_none [] (t ++ rest) = ps ++ lex m_none [] rest.
Lemma lex0_app : forall a b x y, lex0 a x -> lex0 b y -> lex0 (a ++ b) (x ++ y).
Proof. intros a b x y A B rest. rewrite <- !app_assoc, A, B. reflexivity. Qed.
Lemma lex10 : forall a b x y, lex1 a x -> lex0 b y -> (forall rest, lends (b ++ rest)) -> lex0 (a ++ b) (x ++ y).
Proof. intros a b x y A B L rest. rewrite <- !app_assoc, (A _ (L rest)), B. reflexivity. Qed.
Lemma lex0_nil : lex0 [] [].
Proof. intros rest. reflexivity. Qed.
Lemma lex_quote : forall q s cur rest, ~ In q s -> lex (m_quote q) cur (s ++ q :: rest) = p_text (cur ++ s) :: lex m_none [] rest.
Proof.
  intros q. induction s as [|c s IH]; intros cur rest N; cbn [app lex].
  - rewrite Z.eqb_refl, app_nil_r. reflexivity.
  - destruct (Z.eqb_spec c q) as [->|NE]; [exfalso; apply N; left; reflexivity|]. rewrite IH by (intros X; apply N; right; exact X). rewrite <- app_assoc. reflexivity.
Qed.
Lemma lex_quoted : forall q s, q = 39 \/ q = 34 -> ~ In q s -> lex0 ([q] ++ s ++ [q]) [p_text s].
Proof.
  intros q s Q N rest. rewrite <- !app_assoc. cbn [app lex]. assert (E : space q = false /\ mark q = false /\ (q =? 39) || (q =? 34) = true) by (destruct Q as [-> | ->]; repeat split; reflexivity).
  destruct E as (-> & -> & ->). rewrite lex_quote by exact N. reflexivity.
Qed.
Lemma lex_word1 : forall s cur rest, Forall (fun c => space c || mark c = false) s -> lends rest -> lex m_word cur (s ++ rest) = p_text (cur ++ s) :: lex m_none [] rest.
Proof.
  induction s as [|c s IH]; intros cur rest F L; cbn [app].
  - rewrite app_nil_r. destruct rest as [|c rest]; [reflexivity|]. cbn [lends] in L. cbn [lex]. destruct (space c) eqn:S; [reflexivity|]. cbn [orb] in L. rewrite L. reflexivity.
  - inversion F as [|? ? C F']; subst. apply Bool.orb_false_iff in C. destruct C as [C1 C2]. cbn [lex]. rewrite C1, C2. rewrite (IH _ _ F' L), <- app_assoc. reflexivity.
Qed.
(** A word without separators and quotes. *)
Definition plain_word (s : str) : Prop := s <> [] /\ Forall (fun c => space c || mark c || (c =? 39) || (c =? 34) = false) s.
Lemma lex_word : forall s, plain_word s -> lex1 s [p_text s].
Proof.
  intros [|c s] [NE F] rest L; [contradiction|]. inversion F as [|? ? C F']; subst. cbn [app lex]. destruct (space c); [discriminate C|]. destruct (mark c); [discriminate C|]. cbn [orb] in C. rewrite C.
  rewrite lex_word1; [reflexivity| |exact L]. eapply Forall_impl; [|exact F']. cbv beta. intros x X. destruct (space x); [discriminate X|]. destruct (mark x); [discriminate X|]. reflexivity.
Qed.
Lemma int_word : forall n, 0 <= n -> plain_word (int_str n).
Proof.
  intros n N. unfold int_str. destruct (Z.ltb_spec n 0); [lia|]. split.
  - cbn [dec_digits]. intros X. apply app_eq_nil in X. destruct X as [_ X]. discriminate X.
  - apply Forall_forall. intros c I. apply digits_chars in I; [|exact N]. unfold space, mark. cbn [existsb]. lia.
Qed.

Section L.
Context (z : zlib).
Lemma count_length : forall n i, length (count_from i n) = n.
Proof. induction n as [|n IH]; intros i; cbn [count_from length]; [reflexivity|rewrite IH; reflexivity]. Qed.

Lemma label_lines_read : forall st k, labels_inv (g_dic st) -> k = uel_count (g_dic st) -> forall n i, 1 <= i -> i + Z.of_nat n = k + 1 ->
  exists text ss, label_lines z false n i k st = Done text /\ Forall2 (label z st) (count_from i n) ss /\ lex0 text (commas (List.map (fun s => [p_text s]) ss) ++ match n with O => [] | _ => [p_mark 47; p_mark 59] end).
Proof.
  intros st k [_ LI] K. induction n as [|n IH]; intros i I1 IN; cbn [label_lines count_from].
  - exists [], []. split; [reflexivity|]. split; [constructor|apply lex0_nil].
  - destruct (znth (d_uels (g_dic st)) (i - 1)) as [[s m]|] eqn:E; [|exfalso; destruct (znth_exists (d_uels (g_dic st)) (i - 1)) as (x & X); [unfold uel_count in K; lia|congruence]].
    assert (L : label z st i s) by (apply label_iff; unfold uel_text; rewrite E; reflexivity). pose proof E as E'.
    destruct (LI _ _ E') as [G _]. apply well_formed_iff in G. destruct G as (_ & _ & Q). destruct (qq_cases s Q) as [QC NQ].
    cbn [exec]. unfold um_uel_get. rewrite E. cbn [obind ret_is r_strs hd]. destruct (IH (i + 1) ltac:(lia) ltac:(lia)) as (text & ss & EL & F2 & LX). rewrite EL. cbn [obind].
    eexists. exists (s :: ss). split; [reflexivity|]. split; [constructor; assumption|].
    assert (L1 : lex0 (s2z "  " ++ quoted s) [p_text s]) by (apply (lex0_app (s2z "  ") (quoted s) [] [p_text s]); [intros rest; reflexivity|exact (lex_quoted (qq s) s QC NQ)]).
    rewrite app_assoc. destruct n as [|n].
    + destruct (Z.ltb_spec i k); [lia|]. inversion F2; subst. cbn [List.map commas label_lines] in *. injection EL as <-. rewrite app_nil_r.
      apply lex0_app; [exact L1|]. intros rest. reflexivity.
    + destruct (Z.ltb_spec i k); [|lia]. destruct ss as [|s2 ss]; [inversion F2|].
      change (commas (List.map (fun s0 => [p_text s0]) (s :: s2 :: ss))) with ([p_text s] ++ [p_mark 44] ++ commas (List.map (fun s0 => [p_text s0]) (s2 :: ss))). rewrite <- !app_assoc.
      rewrite app_assoc. apply lex0_app; [exact L1|]. rewrite app_assoc. apply (lex0_app _ text [p_mark 44]); [intros rest; reflexivity|exact LX].
Qed.
End L.

(** The list of labels of a file, as a statement: every label, in the order of the numbers. *)
Theorem C66_labels : forall z name prod compr cs rs st st2 ns k id, reopened z name prod compr cs rs st st2 -> answers z st2 gdxSystemInfo (ret_i 1 [ns; k]) -> 0 < k -> plain_word id ->
  exists text ss, uel_table z false id st2 = Done text /\ Forall2 (label z st2) (numbers k) ss /\
    parts_of text = [p_text (s2z "Set"); p_text id; p_mark 47] ++ commas (List.map (fun s => [p_text s]) ss) ++ [p_mark 47; p_mark 59].
Proof.
  intros z name prod compr cs rs st st2 ns k id RO (sx & SI) K0 W. pose proof (proj1 (reopened_labels _ _ _ _ _ _ _ _ RO)) as LI.
  cbn [exec] in SI. unfold system_info in SI. injection SI as _ KE _.
  destruct (label_lines_read z st2 k LI (eq_sym KE) (Z.to_nat k) 1 ltac:(lia) ltac:(lia)) as (text & ss & EL & F2 & LX).
  unfold uel_table. cbn [exec]. unfold system_info. cbn [obind ret_i r_ints nth]. cbv zeta. rewrite KE, EL. cbn [obind]. destruct (Z.ltb_spec 0 k); [|lia].
  eexists. exists ss. split; [reflexivity|]. split; [exact F2|]. unfold parts_of. rewrite <- (app_nil_r (_ ++ text)).
  assert (L : lex0 ((s2z "Set " ++ id ++ s2z " /" ++ [ch_eol]) ++ text) ([p_text (s2z "Set"); p_text id; p_mark 47] ++ commas (List.map (fun s => [p_text s]) ss) ++ [p_mark 47; p_mark 59])).
  { apply lex0_app.
    - apply (lex0_app (s2z "Set ") _ [p_text (s2z "Set")]); [intros rest; reflexivity|]. apply (lex10 id _ [p_text id]); [apply lex_word; exact W|intros rest; reflexivity|intros rest; reflexivity].
    - destruct (Z.to_nat k) eqn:KN; [lia|]. exact LX. }
  rewrite L. cbn [lex]. rewrite app_nil_r. reflexivity.
Qed.

(** ** Symbols *)

Lemma ident_no_quote : forall s, wf_ident s -> ~ In 34 s /\ ~ In 39 s.
Proof.
  intros s (_ & c & r & -> & L & F). rewrite Forall_forall in F. unfold letter in L. split; intros [X|X]; try lia; apply F in X; unfold ident_char, letter in X; lia.
Qed.
Lemma type_words : forall t, 0 <= t <= dt_alias -> exists s, a_type t s /\ type_name t = s /\ ~ In 34 s.
Proof.
  intros t T. unfold a_type, type_name, dt_set, dt_par, dt_var, dt_equ, dt_alias in *.
  assert (C : t = 0 \/ t = 1 \/ t = 2 \/ t = 3 \/ t = 4) by lia. destruct C as [->|[->|[->|[->| ->]]]]; (eexists; split; [|split; [reflexivity|cbn; lia]]); intuition reflexivity.
Qed.
(** What is known about the symbols of a file. *)
Lemma file_symbol : forall z name prod compr cs rs st st2 n, reopened z name prod compr cs rs st st2 -> 1 <= n <= sym_count (g_dic st2) ->
  exists id dim typ cnt u t, exec z (gdxSymbolInfo n) st2 = Done (ret_is 1 [dim; typ] [id], st2) /\ exec z (gdxSymbolInfoX n) st2 = Done (ret_is 1 [cnt; u] [t], st2) /\
    symbol z st2 n id dim typ /\ wf_ident id /\ 0 <= dim /\ 0 <= typ <= dt_alias /\ safe_text t.
Proof.
  intros z name prod compr cs rs st st2 n RO N. pose proof RO as (W & _). pose proof (writes_in_writing z _ _ _ _ _ _ W) as IW. pose proof (writing_syms _ _ _ IW) as SI.
  assert (E : exists id s, znth (d_names (g_dic st2)) (n - 1) = Some (id, s)) by (destruct (znth_exists (d_names (g_dic st2)) (n - 1)) as ([id s] & X); [unfold sym_count in N; lia|eauto]).
  destruct E as (id & s & E). assert (SY : symbol z st2 n id (Z.of_nat (sy_dim s)) (sy_type s)) by (apply symbol_iff; eauto).
  assert (EX : exec z (gdxSymbolInfoX n) st2 = Done (ret_is 1 [if Nat.eqb (sy_dim s) 0 then 1 else sy_count s; sy_uinfo s] [sy_expl s], st2)).
  { cbn [exec]. unfold symbol_info_x, get_sym. destruct (Z.eqb_spec n 0); [lia|]. rewrite E. reflexivity. }
  assert (EI : exec z (gdxSymbolInfo n) st2 = Done (ret_is 1 [Z.of_nat (sy_dim s); sy_type s] [id], st2)).
  { cbn [exec]. unfold symbol_info. destruct (Z.eqb_spec n 0); [lia|]. rewrite E. reflexivity. }
  assert (S1 : symbol z st n id (Z.of_nat (sy_dim s)) (sy_type s)) by (split; [lia|]; apply (C20_metadata_is_found_again _ _ _ _ _ _ _ _ (gdxSymbolInfo n) RO Logic.I); eexists; exact EI).
  assert (X1 : answers z st (gdxSymbolInfoX n) (ret_is 1 [if Nat.eqb (sy_dim s) 0 then 1 else sy_count s; sy_uinfo s] [sy_expl s])).
  { apply (C20_metadata_is_found_again _ _ _ _ _ _ _ _ (gdxSymbolInfoX n) RO ltac:(cbn; lia)). eexists. exact EX. }
  exists id, (Z.of_nat (sy_dim s)), (sy_type s). eexists. eexists. eexists. split; [exact EI|]. split; [exact EX|]. split; [exact SY|]. split; [eapply C29_names_are_identifiers; eassumption|]. split; [lia|]. split.
  - apply symbol_iff in S1. destruct S1 as (s0 & Z0 & _ & ->). assert (G : get_sym (g_dic st) n = Some s0) by (unfold get_sym; rewrite Z0; reflexivity).
    destruct (SI _ _ G) as [(T & _)|[(T & _)|(T & _)]]; unfold dt_set, dt_equ, dt_alias in *; lia.
  - eapply C34_explanatory_texts_are_safe; [exact IW| |exact X1]. lia.
Qed.

Lemma front_read : forall id dim tn, ~ In 34 id -> 0 <= dim -> ~ In 34 tn ->
  lex0 ([34] ++ id ++ [34; 46] ++ int_str dim ++ [46; 34] ++ tn ++ [34]) [p_text id; p_mark 46; p_text (int_str dim); p_mark 46; p_text tn].
Proof.
  intros id dim tn NI D NT. assert (E : [34] ++ id ++ [34; 46] ++ int_str dim ++ [46; 34] ++ tn ++ [34] = ([34] ++ id ++ [34]) ++ [46] ++ int_str dim ++ [46] ++ ([34] ++ tn ++ [34])) by (cbn [app]; rewrite <- !app_assoc; reflexivity).
  rewrite E. apply (lex0_app _ _ [p_text id]); [apply lex_quoted; [right; reflexivity|exact NI]|]. apply (lex0_app [46] _ [p_mark 46]); [intros rest; reflexivity|].
  apply (lex10 (int_str dim) _ [p_text (int_str dim)]); [apply lex_word, int_word; exact D| |intros rest; reflexivity].
  apply (lex0_app [46] _ [p_mark 46]); [intros rest; reflexivity|]. apply lex_quoted; [right; reflexivity|exact NT].
Qed.
Lemma text_read : forall t, safe_text t -> lex0 (match t with [] => [] | _ => [32; if existsb (fun c => c =? 34) t then 39 else 34] ++ t ++ [if existsb (fun c => c =? 34) t then 39 else 34] end) (match t with [] => [] | _ => [p_text t] end).
Proof.
  intros t (_ & _ & Q). destruct t as [|c t]; [apply lex0_nil|]. set (s := c :: t) in *. set (q := if existsb (fun c => c =? 34) s then 39 else 34).
  assert (QC : (q = 39 \/ q = 34) /\ ~ In q s).
  { unfold q. destruct (existsb _ s) eqn:X; [|split; [right; reflexivity|]].
    - apply existsb_exists in X. destruct X as (x & I & X). apply Z.eqb_eq in X. subst x. split; [left; reflexivity|]. intros Y. apply Q. split; assumption.
    - intros Y. assert (existsb (fun c => c =? 34) s = true) by (apply existsb_exists; exists 34; split; [exact Y|reflexivity]). congruence. }
  destruct QC as [QC NQ]. apply (lex0_app [32] ([q] ++ s ++ [q]) [] [p_text s]); [intros rest; reflexivity|apply lex_quoted; assumption].
Qed.

Lemma domain_rest : forall doms acc, zlen acc <= 63 -> domain_text false doms acc = let all := acc ++ concat (List.map (fun x => s2z ", " ++ x) doms) in if zlen all <=? 63 then all else too_long.
Proof.
  induction doms as [|d doms IH]; intros acc L; cbn [domain_text List.map concat]; cbv zeta.
  - rewrite app_nil_r. destruct (Z.leb_spec (zlen acc) 63); [reflexivity|lia].
  - rewrite <- !app_assoc. destruct (Z.ltb_spec 63 (zlen (acc ++ s2z ", " ++ d))) as [X|X].
    + destruct (Z.leb_spec (zlen (acc ++ s2z ", " ++ d ++ concat (List.map (fun x => s2z ", " ++ x) doms))) 63) as [Y|Y]; [|reflexivity]. rewrite !zlen_app in *. pose proof (zlen_nonneg (concat (List.map (fun x => s2z ", " ++ x) doms))). lia.
    + rewrite IH by exact X. cbv zeta. rewrite <- !app_assoc. reflexivity.
Qed.
Lemma domain_ok : forall doms, domain_is doms (domain_text true doms []).
Proof.
  intros [|d doms]; unfold domain_is; cbv zeta; [reflexivity|]. cbn [domain_text app concat]. cbv zeta. destruct (Z.ltb_spec 63 (zlen d)) as [X|X].
  - destruct (Z.leb_spec (zlen (d ++ concat (List.map (fun x => s2z ", " ++ x) doms))) 63) as [Y|Y]; [|reflexivity]. rewrite zlen_app in Y. pose proof (zlen_nonneg (concat (List.map (fun x => s2z ", " ++ x) doms))). lia.
  - rewrite domain_rest by exact X. reflexivity.
Qed.
Lemma domain_chars : forall doms, (forall s, In s doms -> ~ In 34 s) -> ~ In 34 (domain_text true doms []).
Proof.
  intros doms F. assert (G : forall l first acc, (forall s, In s l -> ~ In 34 s) -> ~ In 34 acc -> ~ In 34 (domain_text first l acc)).
  { induction l as [|d l IH]; intros first acc FL A; cbn [domain_text]; [exact A|]. cbv zeta. destruct (63 <? _); [unfold too_long; cbn; lia|]. apply IH; [intros s S; apply FL; right; exact S|].
    intros X. apply in_app_or in X. destruct X as [X|X]; [exact (A X)|]. apply in_app_or in X. destruct X as [X|X]; [destruct first; [destruct X|cbn in X; lia]|]. exact (FL d (or_introl eq_refl) X). }
  apply G; [exact F|]. intros [].
Qed.

Lemma lines_of_symbols : forall z dominfo (P : Z -> list part -> Prop) st k, (forall n, 1 <= n <= k -> exists a ps, symbol_item z dominfo n st = Done a /\ lex0 a ps /\ P n ps) ->
  forall j n, 1 <= n -> n + Z.of_nat j = k + 1 ->
  exists text items, symbol_lines z dominfo j n k st = Done text /\ Forall2 P (count_from n j) items /\ lex0 text (commas items).
Proof.
  intros z dominfo P st k H. induction j as [|j IH]; intros n N1 NJ; cbn [symbol_lines count_from].
  - exists [], []. split; [reflexivity|]. split; [constructor|apply lex0_nil].
  - destruct (H n ltac:(lia)) as (a & ps & EA & LA & PA). rewrite EA. cbn [obind]. destruct (IH (n + 1) ltac:(lia) ltac:(lia)) as (text & items & ET & F2 & LT). rewrite ET. cbn [obind].
    eexists. exists (ps :: items). split; [reflexivity|]. split; [constructor; assumption|]. destruct items as [|p2 items].
    + destruct j; [|inversion F2]. cbn [symbol_lines] in ET. injection ET as <-. destruct (Z.ltb_spec n k); [lia|]. cbn [commas app]. intros rest. rewrite <- app_assoc, LA. reflexivity.
    + destruct j; [inversion F2|]. destruct (Z.ltb_spec n k); [|lia]. change (commas (ps :: p2 :: items)) with (ps ++ [p_mark 44] ++ commas (p2 :: items)). apply lex0_app; [exact LA|].
      rewrite app_assoc. apply (lex0_app _ text [p_mark 44]); [intros rest; reflexivity|exact LT].
Qed.

(** The head of the statement. *)
Definition head_of (s : string) : list part := parts_of (s2z s).
(** The list of symbols of a file: every symbol, in the order of the numbers, with its
    dimension, its type and its text. *)
Theorem C66_symbols : forall z name prod compr cs rs st st2 k, reopened z name prod compr cs rs st st2 -> symbols z st2 k ->
  exists text items, symbols_as_set z false st2 = Done text /\ Forall2 (listed z st2) (numbers k) items /\
    parts_of text = head_of "alias (Symbol, Dim, Type, *); set gdxitems(Symbol,Dim,Type) Items in the GDX file /" ++ commas items ++ [p_mark 47; p_mark 59].
Proof.
  intros z name prod compr cs rs st st2 k RO K. apply symbols_iff in K.
  assert (H : forall n, 1 <= n <= k -> exists a ps, symbol_item z false n st2 = Done a /\ lex0 a ps /\ listed z st2 n ps).
  { intros n N. rewrite K in N. destruct (file_symbol _ _ _ _ _ _ _ _ _ RO N) as (id & dim & typ & cnt & u & t & EI & EX & SY & WI & D0 & T0 & ST). destruct (type_words typ T0) as (tn & AT & TN & NT).
    unfold symbol_item. rewrite EI. cbn [obind ret_is r_ints r_strs nth hd]. cbv zeta. rewrite EX. cbn [obind ret_is r_ints r_strs nth hd]. cbv zeta iota. eexists. eexists. split; [reflexivity|]. split.
    - apply lex0_app; [|apply text_read; exact ST]. apply front_read; [apply ident_no_quote; exact WI|exact D0|rewrite TN; exact NT].
    - exists id, dim, typ, tn, cnt, u, t. split; [exact SY|]. split; [exact AT|]. split; [eexists; exact EX|]. rewrite TN. reflexivity. }
  assert (K0 : 0 <= k) by (rewrite K; apply zlen_nonneg).
  destruct (lines_of_symbols z false _ st2 k H (Z.to_nat k) 1 ltac:(lia) ltac:(lia)) as (text & items & ET & F2 & LT).
  unfold symbols_as_set. cbn [exec]. unfold system_info. cbn [obind ret_i r_ints nth]. cbv zeta iota. rewrite <- K, ET. cbn [obind]. eexists. exists items. split; [reflexivity|]. split; [exact F2|].
  unfold parts_of. rewrite <- (app_nil_r (_ ++ text ++ _)).
  assert (L : lex0 ((s2z "alias (Symbol, Dim, Type, *);" ++ [ch_eol] ++ s2z "set    gdxitems(Symbol,Dim,Type)  Items in the GDX file /" ++ [ch_eol]) ++ text ++ s2z "/;" ++ [ch_eol])
    (head_of "alias (Symbol, Dim, Type, *); set gdxitems(Symbol,Dim,Type) Items in the GDX file /" ++ commas items ++ [p_mark 47; p_mark 59])).
  { apply lex0_app; [intros rest; reflexivity|]. apply lex0_app; [exact LT|intros rest; reflexivity]. }
  rewrite L. cbn [lex]. rewrite app_nil_r. reflexivity.
Qed.
(** The same with the domains. *)
Theorem C66_domains : forall z name prod compr cs rs st st2 k, reopened z name prod compr cs rs st st2 -> symbols z st2 k ->
  exists text items, symbols_as_set z true st2 = Done text /\ Forall2 (listed_domain z st2) (numbers k) items /\
    parts_of text = head_of "alias (Symbol, Dim, Type, Domain, *); set gdxitemsDI(Symbol,Dim,Type,Domain) Items in the GDX file /" ++ commas items ++ [p_mark 47; p_mark 59].
Proof.
  intros z name prod compr cs rs st st2 k RO K. pose proof (file_domains _ _ _ _ _ _ _ _ _ RO K) as HD. apply symbols_iff in K.
  assert (H : forall n, 1 <= n <= k -> exists a ps, symbol_item z true n st2 = Done a /\ lex0 a ps /\ listed_domain z st2 n ps).
  { intros n N. destruct (HD n N) as (c & doms0 & (sd & AD) & FD). rewrite K in N. destruct (file_symbol _ _ _ _ _ _ _ _ _ RO N) as (id & dim & typ & cnt & u & t & EI & EX & SY & WI & D0 & T0 & ST). destruct (type_words typ T0) as (tn & AT & TN & NT).
    assert (X : exists doms sd', (if 0 <? dim then exec z (gdxSymbolGetDomainX n) st2 else Done (ret_s 0 [], st2)) = Done (ret_s (if 0 <? dim then c else 0) doms, sd') /\ (forall s, In s doms -> ~ In 34 s) /\
      (if 0 <? dim then exists c, answers z st2 (gdxSymbolGetDomainX n) (ret_s c doms) else doms = [])).
    { destruct (0 <? dim); [exists doms0, sd; split; [exact AD|]; split; [|exists c; eexists; exact AD]|exists [], st2; split; [reflexivity|]; split; [intros s []|reflexivity]].
      intros s I. destruct (FD s I) as [->|W]; [cbn; lia|]. apply ident_no_quote. exact W. }
    destruct X as (doms & sd' & ED & ND & DD).
    unfold symbol_item. rewrite EI. cbn [obind ret_is r_ints r_strs nth hd]. cbv zeta. rewrite EX. cbn [obind ret_is r_ints r_strs nth hd]. cbv zeta iota. rewrite ED. cbn [obind ret_s r_strs]. eexists. eexists. split; [reflexivity|]. split.
    - apply lex0_app; [apply front_read; [apply ident_no_quote; exact WI|exact D0|rewrite TN; exact NT]|].
      change ([46; 34] ++ domain_text true doms [] ++ [34]) with ([46] ++ [34] ++ domain_text true doms [] ++ [34]). apply (lex0_app [46] _ [p_mark 46]); [intros rest; reflexivity|]. apply lex_quoted; [right; reflexivity|apply domain_chars; exact ND].
    - exists id, dim, typ, tn, doms, (domain_text true doms []). split; [exact SY|]. split; [exact AT|]. split; [exact DD|]. split; [apply domain_ok|]. rewrite TN. reflexivity. }
  assert (K0 : 0 <= k) by (rewrite K; apply zlen_nonneg).
  destruct (lines_of_symbols z true _ st2 k H (Z.to_nat k) 1 ltac:(lia) ltac:(lia)) as (text & items & ET & F2 & LT).
  unfold symbols_as_set. cbn [exec]. unfold system_info. cbn [obind ret_i r_ints nth]. cbv zeta iota. rewrite <- K, ET. cbn [obind]. eexists. exists items. split; [reflexivity|]. split; [exact F2|].
  unfold parts_of. rewrite <- (app_nil_r (_ ++ text ++ _)).
  assert (L : lex0 ((s2z "alias (Symbol, Dim, Type, Domain, *);" ++ [ch_eol] ++ s2z "set    gdxitemsDI(Symbol,Dim,Type,Domain)  Items in the GDX file /" ++ [ch_eol]) ++ text ++ s2z "/;" ++ [ch_eol])
    (head_of "alias (Symbol, Dim, Type, Domain, *); set gdxitemsDI(Symbol,Dim,Type,Domain) Items in the GDX file /" ++ commas items ++ [p_mark 47; p_mark 59])).
  { apply lex0_app; [intros rest; reflexivity|]. apply lex0_app; [exact LT|intros rest; reflexivity]. }
  rewrite L. cbn [lex]. rewrite app_nil_r. reflexivity.
Qed.

(** ** Cases *)

Example C66_case_labels : exists text ss, uel_table rle_zlib false (s2z "L") case_read = Done text /\ Forall2 (label rle_zlib case_read) (numbers 3) ss /\
  parts_of text = [p_text (s2z "Set"); p_text (s2z "L"); p_mark 47] ++ commas (List.map (fun s => [p_text s]) ss) ++ [p_mark 47; p_mark 59].
Proof.
  refine (C66_labels _ _ _ _ _ _ _ _ 7 3 (s2z "L") case_reopened _ _ _); [ans|lia|]. split; [discriminate|]. repeat constructor.
Qed.
Lemma case_seven : symbols rle_zlib case_read 7.
Proof. exists 3. ans. Qed.
Example C66_case_symbols : exists text items, symbols_as_set rle_zlib false case_read = Done text /\ Forall2 (listed rle_zlib case_read) (numbers 7) items /\
  parts_of text = head_of "alias (Symbol, Dim, Type, *); set gdxitems(Symbol,Dim,Type) Items in the GDX file /" ++ commas items ++ [p_mark 47; p_mark 59].
Proof. exact (C66_symbols _ _ _ _ _ _ _ _ 7 case_reopened case_seven). Qed.
Example C66_case_domains : exists text items, symbols_as_set rle_zlib true case_read = Done text /\ Forall2 (listed_domain rle_zlib case_read) (numbers 7) items /\
  parts_of text = head_of "alias (Symbol, Dim, Type, Domain, *); set gdxitemsDI(Symbol,Dim,Type,Domain) Items in the GDX file /" ++ commas items ++ [p_mark 47; p_mark 59].
Proof.
  exact (C66_domains _ _ _ _ _ _ _ _ 7 case_reopened case_seven).
Qed.
(** The text with the domains. *)
Example C66_case_text : symbols_as_set rle_zlib true case_read = Done (List.map (fun c => if c =? 39 then 34 else c)
  (s2z "alias (Symbol, Dim, Type, Domain, *);" ++ [10] ++ s2z "set    gdxitemsDI(Symbol,Dim,Type,Domain)  Items in the GDX file /" ++ [10] ++
   s2z "'I'.1.'Set'.'*'," ++ [10] ++ s2z "'II'.1.'Alias'.'*'," ++ [10] ++ s2z "'III'.1.'Alias'.'*'," ++ [10] ++ s2z "'U'.1.'Alias'.'*'," ++ [10] ++ s2z "'cap'.1.'Par'.'I'," ++ [10] ++
   s2z "'dist'.2.'Par'.'I, *'," ++ [10] ++ s2z "'X'.1.'Var'.'*'" ++ [10] ++ s2z "/;" ++ [10])).
Proof. vm_compute. reflexivity. Qed.

Print Assumptions C66_labels.
Print Assumptions C66_symbols.
Print Assumptions C66_domains.
