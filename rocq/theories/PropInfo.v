(** * C70: the tables of symbols that gdxdump writes *)

From Coq Require Import String Permutation Sorted.
From Verif Require Import DomRefs.
From Verif Require Import Base Prim Values Records LinkedData StrHash IntMap Strings AStream BufStream State
  FileImage ApiCore ApiFile ApiWrite ApiRead Api FileFacts BlockFacts StreamFacts OpenFacts DicInv WriteInv WriteSteps Journal WriteCalls WriteTrace
  Footprint SessInv FileFlow Sessions Vocab PropErr Reopen ReadFacts ReadRecs ReadLoops Cases PropNames PropMeta Segment PropStruct PropTexts
  LabelFacts Contents Wrote PropLabels Readers PropRead Diff Dump PropDump DumpData PropData DumpList PropList DumpText PropSetText DumpInfo.
Open Scope Z_scope.
Open Scope list_scope.

(** ** Specification *)

(** The order of names: by the first character that differs. *)
Fixpoint name_lt (a b : str) : Prop :=
  match a, b with
  | _, [] => False
  | [], _ => True
  | x :: a', y :: b' => x < y \/ x = y /\ name_lt a' b'
  end.
(** The numbers of all symbols, each once, in the order of the names. *)
Definition symbol_name (z : zlib) (st : gst) (n : Z) (s : str) : Prop := exists dim typ, symbol z st n s dim typ.
Definition in_order (z : zlib) (st : gst) (k : Z) (order : list Z) : Prop :=
  Permutation order (numbers k) /\ exists names, Forall2 (symbol_name z st) order names /\ StronglySorted name_lt names.
(** A column of width [w], filled with blanks. *)
Definition right_col (w : Z) (s c : str) : Prop := zlen c = w /\ exists j, c = repeat 32 j ++ s.
Definition left_col (w : Z) (s c : str) : Prop := zlen c = w /\ exists j, c = s ++ repeat 32 j.
(** The heading and the line for symbol [n], which is number [i] of the table. *)
Definition heading (w1 w2 w3 : Z) (line : str) : Prop :=
  exists c1 c2 c3, right_col w1 [] c1 /\ left_col w2 (s2z "Symbol") c2 /\ left_col w3 (s2z "Records") c3 /\
    line = c1 ++ [32] ++ c2 ++ s2z " Dim Type " ++ c3 ++ s2z "  Explanatory text".
Definition row (z : zlib) (st : gst) (w1 w2 w3 i n : Z) (line : str) : Prop :=
  exists name dim typ tn cnt u t c1 c2 j4 c3 j, symbol z st n name dim typ /\ a_type typ tn /\ answers z st (gdxSymbolInfoX n) (ret_is 1 [cnt; u] [t]) /\
    right_col w1 (int_str i) c1 /\ left_col w2 name c2 /\ right_col w3 (int_str cnt) c3 /\
    line = c1 ++ [32] ++ c2 ++ [32] ++ (repeat 32 j ++ int_str dim) ++ [32] ++ (repeat 32 j4 ++ tn) ++ [32] ++ c3 ++ s2z "  " ++ t.
(** The kinds of domains, and the line for symbol [n] in the table of domains. *)
Definition a_kind (c : Z) (s : str) : Prop := c = 1 /\ s = s2z "None" \/ c = 2 /\ s = s2z "Relaxed" \/ c = 3 /\ s = s2z "Regular".
Definition domain_list (doms : list str) : str := concat (match doms with [] => [] | d :: r => d :: List.map (fun x => s2z ", " ++ x) r end).
Definition domain_row (z : zlib) (st : gst) (w1 n : Z) (line : str) : Prop :=
  exists name dim typ tn c kn doms c1 c2 c3, symbol z st n name dim typ /\ a_type typ tn /\ answers z st (gdxSymbolGetDomainX n) (ret_s c doms) /\ a_kind c kn /\
    right_col w1 (int_str n) c1 /\ right_col 5 tn c2 /\ right_col 7 kn c3 /\
    line = c1 ++ [32] ++ c2 ++ [32] ++ c3 ++ [32] ++ name ++ (if 0 <? dim then [40] ++ domain_list doms ++ [41] else []).

(** ** Proofs *)

Lemma before_lt : forall a b, str_before a b = true <-> name_lt a b.
Proof.
  induction a as [|x a IH]; intros [|y b]; cbn; try (split; [discriminate|contradiction]); [split; auto|].
  destruct (Z.eqb_spec x y) as [->|NE]; [rewrite IH; split; [auto|intros [X|[_ X]]; [lia|exact X]]|]. split; [intros X; left; lia|intros [X|[X _]]; lia].
Qed.
Lemma name_trans : forall a b c, name_lt a b -> name_lt b c -> name_lt a c.
Proof.
  induction a as [|x a IH]; intros [|y b] [|w c]; cbn; try contradiction; try auto. intros [A|[-> A]] [B|[-> B]]; try (left; lia). right. split; [reflexivity|]. eapply IH; eassumption.
Qed.
Lemma name_total : forall a b, name_lt a b \/ a = b \/ name_lt b a.
Proof.
  induction a as [|x a IH]; intros [|y b]; cbn; auto. destruct (Z.lt_trichotomy x y) as [X|[->|X]]; [auto| |auto]. destruct (IH b) as [X|[->|X]]; auto.
Qed.

Lemma insert_perm : forall k v l, ~ In k (List.map fst l) -> Permutation (map_insert k v l) ((k, v) :: l).
Proof.
  intros k v. induction l as [|[a n] l IH]; intros NI; cbn [map_insert fst]; [constructor; constructor|]. cbn [List.map In fst] in NI.
  destruct (str_before k a) eqn:B1; [apply Permutation_refl|]. destruct (str_before a k) eqn:B2.
  - eapply perm_trans; [apply perm_skip, IH; tauto|apply perm_swap].
  - exfalso. destruct (name_total k a) as [X|[X|X]]; [apply before_lt in X; congruence|apply NI; auto|apply before_lt in X; congruence].
Qed.
Lemma insert_sorted : forall k v l, StronglySorted name_lt (List.map fst l) -> StronglySorted name_lt (List.map fst (map_insert k v l)).
Proof.
  intros k v. induction l as [|[a n] l IH]; intros S; cbn [map_insert fst List.map]; [constructor; constructor|]. inversion S as [|? ? S' F]; subst.
  destruct (str_before k a) eqn:B1; [apply before_lt in B1; constructor; [exact S|]; constructor; [exact B1|]; eapply Forall_impl; [|exact F]; intros b; apply name_trans; exact B1|].
  destruct (str_before a k) eqn:B2; [|exact S]. apply before_lt in B2. cbn [List.map fst]. constructor; [apply IH; exact S'|]. rewrite Forall_forall in *. intros b I.
  assert (X : b = k \/ In b (List.map fst l)).
  { clear - I. induction l as [|[c m] l IH]; cbn [map_insert fst List.map In] in *; [destruct I as [<-|[]]; auto|]. destruct (str_before k c); [cbn in I; destruct I as [<-|I]; auto|]. destruct (str_before c k); cbn in I; [destruct I as [<-|I]; [auto|destruct (IH I); auto]|auto]. }
  destruct X as [->|X]; auto.
Qed.

Lemma digits_mono : forall f i k, 0 <= i <= k -> (length (dec_digits f i) <= length (dec_digits f k))%nat.
Proof.
  induction f as [|f IH]; intros i k I; [apply le_n|]. cbn [dec_digits]. rewrite !app_length. cbn [length]. destruct (Z.ltb_spec k 10).
  - destruct (Z.ltb_spec i 10); lia.
  - destruct (Z.ltb_spec i 10); [cbn [length]; lia|]. specialize (IH (i / 10) (k / 10)). assert (0 <= i / 10 <= k / 10) by (split; [apply Z.div_pos; lia|apply Z.div_le_mono; lia]). specialize (IH H1). lia.
Qed.
Lemma width_mono : forall i k, 0 <= i <= k -> int_width i <= int_width k.
Proof.
  intros i k I. unfold int_width, int_str, zlen. destruct (Z.ltb_spec i 0); [lia|]. destruct (Z.ltb_spec k 0); [lia|]. pose proof (digits_mono 20 i k I). lia.
Qed.
Lemma pad_left_col : forall w s, zlen s <= w -> right_col w s (pad_left w s).
Proof. intros w s L. split; [|exists (Z.to_nat (w - zlen s)); reflexivity]. unfold pad_left. rewrite zlen_app. unfold zlen at 1. rewrite repeat_length. lia. Qed.
Lemma pad_right_col : forall w s, zlen s <= w -> left_col w s (pad_right w s).
Proof. intros w s L. split; [|exists (Z.to_nat (w - zlen s)); reflexivity]. unfold pad_right. rewrite zlen_app. unfold zlen at 2. rewrite repeat_length. lia. Qed.
Lemma repeat_no_eol : forall j, ~ In 10 (repeat 32 j).
Proof. intros j I. apply repeat_spec in I. discriminate I. Qed.
Lemma no_eol_app : forall a b : str, ~ In 10 a -> ~ In 10 b -> ~ In 10 (a ++ b).
Proof. intros a b A B I. apply in_app_or in I. tauto. Qed.
Lemma int_no_eol' : forall n, ~ In 10 (int_str n).
Proof. intros n I. unfold int_str in I. destruct (Z.ltb_spec n 0); [destruct I as [I|I]; [discriminate I|]|]; apply digits_chars in I; lia. Qed.
Lemma ident_no_eol : forall s, wf_ident s -> ~ In 10 s.
Proof.
  intros s (_ & c & r & -> & L & F). rewrite Forall_forall in F. unfold letter in L. intros [X|X]; [lia|]. apply F in X. unfold ident_char, letter in X. lia.
Qed.
Lemma type_no_eol : forall t, ~ In 10 (type_name t).
Proof. intros t. unfold type_name. repeat (destruct (_ =? _); [cbn; lia|]). cbn. lia. Qed.

Section I.
Context (z : zlib) (st : gst) (k : Z).
(** What is known about the symbols. *)
Definition known : Prop := forall n, 1 <= n <= k -> exists id dim typ cnt u t, exec z (gdxSymbolInfo n) st = Done (ret_is 1 [dim; typ] [id], st) /\ exec z (gdxSymbolInfoX n) st = Done (ret_is 1 [cnt; u] [t], st) /\
    symbol z st n id dim typ /\ wf_ident id /\ 0 <= dim /\ 0 <= typ <= dt_alias /\ safe_text t.
Definition unique : Prop := forall i j s, symbol_name z st i s -> symbol_name z st j s -> i = j.
(** An entry of the map. *)
Definition entry_ok (n : Z) (e : str * Z) : Prop := 1 <= snd e < n /\ symbol_name z st (snd e) (fst e).

Lemma fresh_name : unique -> forall n id sl, symbol_name z st n id -> Forall (entry_ok n) sl -> ~ In id (List.map fst sl).
Proof.
  intros U n id sl S F I. apply in_map_iff in I. destruct I as ([a m] & E & I). cbn [fst] in E. subst a. rewrite Forall_forall in F. destruct (F _ I) as [R X]. cbn [fst snd] in *. pose proof (U _ _ _ S X). lia.
Qed.
Lemma insert_ok : unique -> forall n id sl, 1 <= n -> symbol_name z st n id -> Forall (entry_ok n) sl -> StronglySorted name_lt (List.map fst sl) ->
  Forall (entry_ok (n + 1)) (map_insert id n sl) /\ StronglySorted name_lt (List.map fst (map_insert id n sl)) /\ Permutation (List.map snd (map_insert id n sl)) (n :: List.map snd sl).
Proof.
  intros U n id sl N S F SS. pose proof (insert_perm id n sl (fresh_name U n id sl S F)) as P. split; [|split; [apply insert_sorted; exact SS|exact (Permutation_map snd P)]].
  rewrite Forall_forall in *. intros e I. apply (Permutation_in _ P) in I. destruct I as [<-|I]; [split; [cbn; lia|exact S]|]. destruct (F e I) as [R X]. split; [lia|exact X].
Qed.
Lemma collect_ok : known -> unique -> forall c n sl w2 w3, 1 <= n -> n + Z.of_nat c = k + 1 -> Forall (entry_ok n) sl -> StronglySorted name_lt (List.map fst sl) ->
  exists sl' w2' w3', collect z c n st sl w2 w3 = Done (sl', w2', w3') /\ Forall (entry_ok (k + 1)) sl' /\ StronglySorted name_lt (List.map fst sl') /\ Permutation (List.map snd sl') (List.map snd sl ++ count_from n c) /\
    w2 <= w2' /\ w3 <= w3' /\ forall m id dim typ cnt u t, n <= m <= k -> exec z (gdxSymbolInfo m) st = Done (ret_is 1 [dim; typ] [id], st) -> exec z (gdxSymbolInfoX m) st = Done (ret_is 1 [cnt; u] [t], st) -> zlen id <= w2' /\ int_width cnt <= w3'.
Proof.
  intros K U. induction c as [|c IH]; intros n sl w2 w3 N E F SS; cbn [collect count_from].
  - exists sl, w2, w3. split; [reflexivity|]. rewrite app_nil_r. replace (k + 1) with n by lia. split; [exact F|]. split; [exact SS|]. split; [apply Permutation_refl|]. split; [lia|]. split; [lia|]. intros; lia.
  - destruct (K n ltac:(lia)) as (id & dim & typ & cnt & u & t & EI & EX & SY & _). rewrite EI. cbn [obind ret_is r_strs hd]. rewrite EX. cbn [obind ret_is r_ints nth]. cbv zeta.
    destruct (insert_ok U n id sl N ltac:(exists dim, typ; exact SY) F SS) as (F' & SS' & P').
    destruct (IH (n + 1) (map_insert id n sl) (if w2 <? zlen id then zlen id else w2) (Z.max w3 (int_width cnt)) ltac:(lia) ltac:(lia) F' SS') as (sl' & w2' & w3' & EC & FE & S' & P & L2 & L3 & M).
    assert (L2' : w2 <= w2' /\ zlen id <= w2') by (revert L2; destruct (Z.ltb_spec w2 (zlen id)); lia).
    exists sl', w2', w3'. split; [exact EC|]. split; [exact FE|]. split; [exact S'|]. split.
    { eapply perm_trans; [exact P|]. eapply perm_trans; [apply Permutation_app_tail, P'|]. cbn [app]. apply Permutation_middle. }
    split; [lia|]. split; [lia|]. intros m id' dim' typ' cnt' u' t' R EI' EX'. destruct (Z.eq_dec m n) as [->|NE]; [|eapply (M m); [lia|exact EI'|exact EX']].
    rewrite EI in EI'. rewrite EX in EX'. injection EI' as _ _ <-. injection EX' as <- _ _. lia.
Qed.
Lemma collect_names_ok : known -> unique -> forall c n sl, 1 <= n -> n + Z.of_nat c = k + 1 -> Forall (entry_ok n) sl -> StronglySorted name_lt (List.map fst sl) ->
  exists sl', collect_names z c n st sl = Done sl' /\ Forall (entry_ok (k + 1)) sl' /\ StronglySorted name_lt (List.map fst sl') /\ Permutation (List.map snd sl') (List.map snd sl ++ count_from n c).
Proof.
  intros K U. induction c as [|c IH]; intros n sl N E F SS; cbn [collect_names count_from].
  - exists sl. split; [reflexivity|]. rewrite app_nil_r. replace (k + 1) with n by lia. split; [exact F|]. split; [exact SS|apply Permutation_refl].
  - destruct (K n ltac:(lia)) as (id & dim & typ & cnt & u & t & EI & EX & SY & _). rewrite EI. cbn [obind ret_is r_strs hd].
    destruct (insert_ok U n id sl N ltac:(exists dim, typ; exact SY) F SS) as (F' & SS' & P').
    destruct (IH (n + 1) (map_insert id n sl) ltac:(lia) ltac:(lia) F' SS') as (sl' & EC & FE & S' & P). exists sl'. split; [exact EC|]. split; [exact FE|]. split; [exact S'|].
    eapply perm_trans; [exact P|]. eapply perm_trans; [apply Permutation_app_tail, P'|]. cbn [app]. apply Permutation_middle.
Qed.
Lemma order_ok : forall sl, Forall (entry_ok (k + 1)) sl -> StronglySorted name_lt (List.map fst sl) -> Permutation (List.map snd sl) (numbers k) -> in_order z st k (List.map snd sl).
Proof.
  intros sl F S P. split; [exact P|]. exists (List.map fst sl). split; [|exact S]. clear - F. induction F as [|e l E F IH]; cbn; constructor; [exact (proj2 E)|exact IH].
Qed.

Lemma info_lines_ok : known -> forall w1 w2 w3, (forall i, 1 <= i <= k -> int_width i <= w1) ->
  (forall m id dim typ cnt u t, 1 <= m <= k -> exec z (gdxSymbolInfo m) st = Done (ret_is 1 [dim; typ] [id], st) -> exec z (gdxSymbolInfoX m) st = Done (ret_is 1 [cnt; u] [t], st) -> zlen id <= w2 /\ int_width cnt <= w3) ->
  forall sl i, Forall (entry_ok (k + 1)) sl -> 1 <= i -> i + zlen sl <= k + 1 ->
  exists text ls, info_lines z sl i w1 w2 w3 st = Done text /\ lines_in text = ls /\ Forall2 (fun p l => row z st w1 w2 w3 (fst p) (snd p) l) (combine (count_from i (length sl)) (List.map snd sl)) ls.
Proof.
  intros K w1 w2 w3 W1 W23. induction sl as [|[a n] sl IH]; intros i F I IK; cbn [info_lines length count_from List.map snd combine]; [exists [], []; split; [reflexivity|]; split; [reflexivity|constructor]|].
  inversion F as [|? ? [N _] F']; subst. cbn [snd] in N. change ((a, n) :: sl) with ([(a, n)] ++ sl) in IK. rewrite zlen_app in IK. change (zlen [(a, n)]) with 1 in IK. pose proof (zlen_nonneg sl).
  destruct (IH (i + 1) F' ltac:(lia) ltac:(lia)) as (text & ls & EL & LL & F2). destruct (K n ltac:(lia)) as (id & dim & typ & cnt & u & t & EI & EX & SY & WI & D0 & T0 & ST). destruct (W23 n id dim typ cnt u t ltac:(lia) EI EX) as [L2 L3].
  rewrite EI. cbn [obind]. rewrite EX. cbn [obind]. rewrite EL. cbn [obind ret_is r_strs r_ints hd nth]. destruct (type_words typ T0) as (tn & AT & TN & _).
  set (line := pad_left w1 (int_str i) ++ [32] ++ pad_right w2 id ++ [32] ++ pad_left 3 (int_str dim) ++ [32] ++ pad_left 4 (type_name typ) ++ [32] ++ pad_left w3 (int_str cnt) ++ s2z "  " ++ t).
  exists (line ++ 10 :: text), (line :: ls). split; [unfold line; rewrite <- !app_assoc; reflexivity|]. split.
  - rewrite line_in; [rewrite LL; reflexivity|]. unfold line, pad_left, pad_right. destruct ST as (_ & CH & _).
    repeat apply no_eol_app; try apply repeat_no_eol; try apply int_no_eol'; try apply type_no_eol; try (apply ident_no_eol; exact WI); try (cbn; lia). intros X. rewrite Forall_forall in CH. apply CH in X. lia.
  - constructor; [|exact F2]. cbn [fst snd]. exists id, dim, typ, tn, cnt, u, t, (pad_left w1 (int_str i)), (pad_right w2 id), (Z.to_nat (4 - zlen tn)), (pad_left w3 (int_str cnt)), (Z.to_nat (3 - zlen (int_str dim))).
    split; [exact SY|]. split; [exact AT|]. split; [eexists; exact EX|]. split; [apply pad_left_col, W1; lia|]. split; [apply pad_right_col; exact L2|]. split; [apply pad_left_col; exact L3|]. unfold line. rewrite TN. reflexivity.
Qed.

Lemma comma_names_ok : forall l, comma_names l = domain_list l.
Proof.
  assert (G : forall l a, comma_names (a :: l) = a ++ concat (List.map (fun x => s2z ", " ++ x) l)).
  { induction l as [|b l IH]; intros a; [cbn; rewrite app_nil_r; reflexivity|]. change (comma_names (a :: b :: l)) with (a ++ s2z ", " ++ comma_names (b :: l)). rewrite IH. cbn [List.map concat]. rewrite <- !app_assoc. reflexivity. }
  intros [|a l]; [reflexivity|]. rewrite G. reflexivity.
Qed.
Lemma kind_ok : forall n id dim typ c doms s', symbol z st n id dim typ -> exec z (gdxSymbolGetDomainX n) st = Done (ret_s c doms, s') -> exists kn, a_kind c kn /\ domain_kind c = kn /\ zlen kn <= 7 /\ ~ In 10 kn.
Proof.
  intros n id dim typ c doms s' SY E. apply symbol_iff in SY. destruct SY as (s & ZN & _). cbn [exec] in E. unfold symbol_get_domain_x in E. destruct (negb _); [discriminate E|]. unfold get_sym in E. rewrite ZN in E. cbn [option_map snd] in E.
  assert (C : c = 1 \/ c = 2 \/ c = 3).
  { destruct (sy_dstrs s); [destruct (dom_names _ _); [|discriminate E]; cbn [obind] in E; injection E as <- _ _; auto|]. destruct (sy_doms s); [destruct (dom_names _ _); [|discriminate E]; cbn [obind] in E; injection E as <- _ _; auto|]. injection E as <- _ _; auto. }
  exists (domain_kind c). unfold a_kind. destruct C as [->|[->| ->]]; (split; [|split; [reflexivity|split; [vm_compute; discriminate|intros X; vm_compute in X; lia]]]); [left|right; left|right; right]; split; reflexivity.
Qed.
Lemma domain_lines_ok : known -> forall w1, (forall i, 1 <= i <= k -> int_width i <= w1) ->
  (forall n, 1 <= n <= k -> exists c doms, answers z st (gdxSymbolGetDomainX n) (ret_s c doms) /\ forall s, In s doms -> s = s2z "*" \/ wf_ident s) ->
  forall sl, Forall (entry_ok (k + 1)) sl ->
  exists text ls, domain_lines z sl w1 st = Done text /\ lines_in text = ls /\ Forall2 (domain_row z st w1) (List.map snd sl) ls.
Proof.
  intros K w1 W1 HD. induction sl as [|[a n] sl IH]; intros F; cbn [domain_lines List.map snd]; [exists [], []; split; [reflexivity|]; split; [reflexivity|constructor]|].
  inversion F as [|? ? [N _] F']; subst. cbn [snd] in N. destruct (IH F') as (text & ls & EL & LL & F2). destruct (K n ltac:(lia)) as (id & dim & typ & cnt & u & t & EI & EX & SY & WI & D0 & T0 & ST). destruct (HD n ltac:(lia)) as (c & doms & (sd & ED) & FD).
  rewrite EI. cbn [obind]. rewrite ED. cbn [obind]. rewrite EL. cbn [obind ret_is ret_s r_code r_strs r_ints hd nth]. destruct (type_words typ T0) as (tn & AT & TN & _). destruct (kind_ok _ _ _ _ _ _ _ SY ED) as (kn & AK & EK & LK & NK). rewrite EK, comma_names_ok, TN.
  assert (L5 : zlen tn <= 5) by (destruct AT as [[_ ->]|[[_ ->]|[[_ ->]|[[_ ->]|[_ ->]]]]]; vm_compute; discriminate).
  set (line := pad_left w1 (int_str n) ++ [32] ++ pad_left 5 tn ++ [32] ++ pad_left 7 kn ++ [32] ++ id ++ (if 0 <? dim then [40] ++ domain_list doms ++ [41] else [])).
  exists (line ++ 10 :: text), (line :: ls). split; [unfold line; rewrite <- !app_assoc; reflexivity|]. split.
  - rewrite line_in; [rewrite LL; reflexivity|].
    assert (ND : ~ In 10 (domain_list doms)).
    { unfold domain_list. intros X. apply in_concat in X. destruct X as (x & I & X). assert (A : exists s, In s doms /\ (x = s \/ x = s2z ", " ++ s)) by (destruct doms as [|d r]; [destruct I|]; destruct I as [<-|I]; [exists d; split; [left; reflexivity|auto]|apply in_map_iff in I; destruct I as (s & <- & I); exists s; split; [right; exact I|auto]]).
      destruct A as (s & IS & A). assert (NS : ~ In 10 s) by (destruct (FD s IS) as [->|W]; [cbn; lia|apply ident_no_eol; exact W]). destruct A as [->| ->]; [exact (NS X)|]. apply in_app_or in X. destruct X as [X|X]; [cbn in X; lia|exact (NS X)]. }
    assert (NT : ~ In 10 tn) by (rewrite <- TN; apply type_no_eol). unfold line, pad_left.
    repeat apply no_eol_app; try apply repeat_no_eol; try apply int_no_eol'; try assumption; try (apply ident_no_eol; exact WI); try (cbn; lia). destruct (0 <? dim); [|intros []]. repeat apply no_eol_app; [cbn; lia|exact ND|cbn; lia].
  - constructor; [|exact F2]. exists id, dim, typ, tn, c, kn, doms, (pad_left w1 (int_str n)), (pad_left 5 tn), (pad_left 7 kn).
    split; [exact SY|]. split; [exact AT|]. split; [eexists; exact ED|]. split; [exact AK|]. split; [apply pad_left_col, W1; lia|]. split; [apply pad_left_col; exact L5|]. split; [apply pad_left_col; exact LK|]. reflexivity.
Qed.
End I.

Lemma reopened_known : forall z name prod compr cs rs st st2, reopened z name prod compr cs rs st st2 -> known z st2 (sym_count (g_dic st2)) /\ unique z st2.
Proof.
  intros z name prod compr cs rs st st2 RO. split; [intros n N; exact (file_symbol _ _ _ _ _ _ _ _ n RO N)|]. intros i j s (d1 & t1 & S1) (d2 & t2 & S2). pose proof RO as (W & _). pose proof (writes_in_writing z _ _ _ _ _ _ W) as IW.
  assert (B : forall n d t, symbol z st2 n s d t -> symbol z st n s d t).
  { intros n d t (N & x & E). split; [exact N|]. apply (C20_metadata_is_found_again _ _ _ _ _ _ _ _ (gdxSymbolInfo n) RO Logic.I). eexists. exact E. }
  eapply C29_names_are_unique; [exact IW|apply B; exact S1|apply B; exact S2|reflexivity].
Qed.

(** ** Theorems *)

(** The table of symbols: a heading and one line for each symbol, in the order of the names
    and numbered from 1. *)
Theorem C70_symbols : forall z name prod compr cs rs st st2 k, reopened z name prod compr cs rs st st2 -> symbols z st2 k ->
  exists text order w1 w2 w3 h ls, symbol_table z st2 = Done text /\ in_order z st2 k order /\ lines_in text = h :: ls /\ heading w1 w2 w3 h /\
    Forall2 (fun p l => row z st2 w1 w2 w3 (fst p) (snd p) l) (combine (numbers k) order) ls.
Proof.
  intros z name prod compr cs rs st st2 k RO K. apply symbols_iff in K. destruct (reopened_known _ _ _ _ _ _ _ _ RO) as [KN U]. rewrite <- K in KN. assert (K0 : 0 <= k) by (rewrite K; apply zlen_nonneg).
  destruct (collect_ok z st2 k KN U (Z.to_nat k) 1 [] (zlen (s2z "Symbol")) (zlen (s2z "Records")) ltac:(lia) ltac:(lia) (Forall_nil _) (SSorted_nil _)) as (sl & w2 & w3 & EC & FE & SS & P & L2 & L3 & M). cbn [List.map app] in P.
  assert (LS : length sl = Z.to_nat k) by (apply Permutation_length in P; rewrite map_length, count_length in P; exact P).
  assert (W1 : forall i, 1 <= i <= k -> int_width i <= int_width k) by (intros i I; apply width_mono; lia).
  destruct (info_lines_ok z st2 k KN (int_width k) w2 w3 W1 M sl 1 FE ltac:(lia) ltac:(unfold zlen; lia)) as (text & ls & EL & LL & F2). rewrite LS in F2.
  unfold symbol_table. cbn [exec]. unfold system_info. cbn [obind ret_i r_ints nth]. cbv zeta. rewrite <- K, EC. cbn [obind]. rewrite EL. cbn [obind].
  assert (W0 : 1 <= int_width k) by exact (width_mono 0 k (conj (Z.le_refl 0) K0)).
  set (h := pad_left (int_width k) [32] ++ [32] ++ pad_right w2 (s2z "Symbol") ++ s2z " Dim Type " ++ pad_right w3 (s2z "Records") ++ s2z "  Explanatory text").
  exists (h ++ 10 :: text), (List.map snd sl), (int_width k), w2, w3, h, ls. split; [unfold h; rewrite <- !app_assoc; reflexivity|]. split; [apply order_ok; [exact FE|exact SS|exact P]|]. split.
  - rewrite line_in; [rewrite LL; reflexivity|]. unfold h, pad_left, pad_right. repeat apply no_eol_app; try apply repeat_no_eol; cbn; lia.
  - split; [|exact F2]. exists (pad_left (int_width k) [32]), (pad_right w2 (s2z "Symbol")), (pad_right w3 (s2z "Records")). split; [|split; [apply pad_right_col; exact L2|split; [apply pad_right_col; exact L3|reflexivity]]].
    destruct (pad_left_col (int_width k) [32]) as [A (j & B)]; [exact W0|]. split; [exact A|]. exists (S j). rewrite B, app_nil_r. change [32] with (repeat 32 1). rewrite <- repeat_app. f_equal. lia.
Qed.
(** The table of domains. *)
Theorem C70_domains : forall z name prod compr cs rs st st2 k, reopened z name prod compr cs rs st st2 -> symbols z st2 k ->
  exists text order w1 c1 ls, domain_table z st2 = Done text /\ in_order z st2 k order /\ right_col w1 (s2z "SyNr") c1 /\
    lines_in text = (c1 ++ s2z "  Type  DomInf Symbol") :: ls /\ Forall2 (domain_row z st2 w1) order ls.
Proof.
  intros z name prod compr cs rs st st2 k RO K. pose proof (file_domains _ _ _ _ _ _ _ _ _ RO K) as HD. apply symbols_iff in K. destruct (reopened_known _ _ _ _ _ _ _ _ RO) as [KN U]. rewrite <- K in KN. assert (K0 : 0 <= k) by (rewrite K; apply zlen_nonneg).
  destruct (collect_names_ok z st2 k KN U (Z.to_nat k) 1 [] ltac:(lia) ltac:(lia) (Forall_nil _) (SSorted_nil _)) as (sl & EC & FE & SS & P). cbn [List.map app] in P.
  set (w1 := Z.max (int_width k) 4). assert (W1 : forall i, 1 <= i <= k -> int_width i <= w1) by (intros i I; pose proof (width_mono i k ltac:(lia)); unfold w1; lia).
  destruct (domain_lines_ok z st2 k KN w1 W1 HD sl FE) as (text & ls & EL & LL & F2).
  unfold domain_table. cbn [exec]. unfold system_info. cbn [obind ret_i r_ints nth]. cbv zeta. rewrite <- K, EC. cbn [obind]. fold w1. rewrite EL. cbn [obind].
  exists ((pad_left w1 (s2z "SyNr") ++ s2z "  Type  DomInf Symbol") ++ 10 :: text), (List.map snd sl), w1, (pad_left w1 (s2z "SyNr")), ls. split; [rewrite <- !app_assoc; reflexivity|]. split; [apply order_ok; [exact FE|exact SS|exact P]|].
  split; [apply pad_left_col; change (zlen (s2z "SyNr")) with 4; unfold w1; lia|]. split; [|exact F2]. rewrite line_in; [rewrite LL; reflexivity|]. unfold pad_left. repeat apply no_eol_app; try apply repeat_no_eol; cbn; lia.
Qed.

(** ** Cases *)

Example C70_case : exists text order w1 w2 w3 h ls, symbol_table rle_zlib case_read = Done text /\ in_order rle_zlib case_read 7 order /\ lines_in text = h :: ls /\ heading w1 w2 w3 h /\
  Forall2 (fun p l => row rle_zlib case_read w1 w2 w3 (fst p) (snd p) l) (combine (numbers 7) order) ls.
Proof. exact (C70_symbols _ _ _ _ _ _ _ _ 7 case_reopened case_seven). Qed.
Definition lines_of (o : outcome str) : list str := match o with Done t => lines_in t | UB => [] end.
(** The lines.  A line for an alias has one character more than its column is wide. *)
Example C70_case_lines : lines_of (symbol_table rle_zlib case_read) =
  [s2z "  Symbol Dim Type Records  Explanatory text"; s2z "1 I        1  Set       2  canning ""plants"""; s2z "2 II       1 Alias       0  Aliased with I"; s2z "3 III      1 Alias       0  Aliased with II";
   s2z "4 U        1 Alias       0  Aliased with *"; s2z "5 X        1  Var       1  shipment"; s2z "6 cap      1  Par       2  capacity"; s2z "7 dist     2  Par       2  distances"].
Proof. vm_compute. reflexivity. Qed.
Example C70_case_domains : exists text order w1 c1 ls, domain_table rle_zlib case_read = Done text /\ in_order rle_zlib case_read 7 order /\ right_col w1 (s2z "SyNr") c1 /\
  lines_in text = (c1 ++ s2z "  Type  DomInf Symbol") :: ls /\ Forall2 (domain_row rle_zlib case_read w1) order ls.
Proof.
  exact (C70_domains _ _ _ _ _ _ _ _ 7 case_reopened case_seven).
Qed.
Example C70_case_domain_lines : lines_of (domain_table rle_zlib case_read) =
  [s2z "SyNr  Type  DomInf Symbol"; s2z "   1   Set    None I(*)"; s2z "   2 Alias    None II(*)"; s2z "   3 Alias    None III(*)"; s2z "   4 Alias    None U(*)"; s2z "   7   Var    None X(*)";
   s2z "   5   Par Regular cap(I)"; s2z "   6   Par Relaxed dist(I, *)"].
Proof. vm_compute. reflexivity. Qed.

Print Assumptions C70_symbols.
Print Assumptions C70_domains.
