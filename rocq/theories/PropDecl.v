(** * C68: the declarations that gdxdump writes *)

From Coq Require Import String Permutation Sorted.
From Verif Require Import DomRefs.
From Verif Require Import Base Prim Values Records LinkedData StrHash IntMap Strings AStream BufStream State
  FileImage ApiCore ApiFile ApiWrite ApiRead Api FileFacts BlockFacts StreamFacts OpenFacts DicInv WriteInv WriteSteps Journal WriteCalls WriteTrace
  Footprint SessInv FileFlow Sessions Vocab PropErr Reopen ReadFacts ReadRecs ReadLoops Cases PropNames PropMeta Segment PropStruct PropTexts
  LabelFacts Contents Wrote PropLabels Readers PropRead Dump PropDump DumpData PropData DumpList PropList DumpDecl.
Open Scope Z_scope.
Open Scope list_scope.

(** ** Specification *)

(** The words in front of the name.  A singleton set is stored with 1. *)
Definition kind_words (typ dim uinfo : Z) : list str :=
  if typ =? dt_set then (if uinfo =? 1 then [s2z "Singleton"; s2z "Set"] else [s2z "Set"])
  else if typ =? dt_par then (if dim =? 0 then [s2z "Scalar"] else [s2z "Parameter"])
  else if typ =? dt_var then
    match uinfo with
    | 0 => [s2z "Variable"] | 1 => [s2z "binary"; s2z "Variable"] | 2 => [s2z "integer"; s2z "Variable"] | 3 => [s2z "positive"; s2z "Variable"] | 4 => [s2z "negative"; s2z "Variable"]
    | 6 => [s2z "sos1"; s2z "Variable"] | 7 => [s2z "sos2"; s2z "Variable"] | 8 => [s2z "semicont"; s2z "Variable"] | 9 => [s2z "semiint"; s2z "Variable"] | _ => [s2z "free"; s2z "Variable"]
    end
  else (if uinfo =? 6 then [s2z "Logic"; s2z "Equation"] else [s2z "Equation"]).
(** The name of a domain: the symbol with that number, or * . *)
Definition dom_name (z : zlib) (st : gst) (k : Z) (s : str) : Prop := k <= 0 /\ s = s2z "*" \/ 0 < k /\ exists dim typ, symbol z st k s dim typ.
(** An explanatory text: nothing, one text in quotes, or its words; then no part of it ends
    the text, and if the symbol has no domain it does not begin like one. *)
Definition text_parts (dim : Z) (t : str) (ps : list part) : Prop :=
  t = [] /\ ps = [] \/ t <> [] /\ ps = [p_text t] \/
  ps = parts_of t /\ ~ In 39 t /\ ~ In 34 t /\ ~ In (p_mark 59) ps /\ ~ In (p_mark 47) ps /\ ~ In (p_mark 44) ps /\ (dim = 0 -> hd_error ps <> Some (p_mark 40)).
Definition words (l : list str) : list part := List.map p_text l.

(** ** Proofs *)

Lemma lex_raw : forall s m cur rest, m = m_none \/ m = m_word -> ~ In 39 s -> ~ In 34 s -> lends rest -> lex m cur (s ++ rest) = lex m cur s ++ lex m_none [] rest.
Proof.
  induction s as [|c s IH]; intros m cur rest M N1 N2 L.
  - cbn [app]. destruct M as [-> | ->].
    + destruct rest; reflexivity.
    + exact (lex_word1 [] cur rest (Forall_nil _) L) || (pose proof (lex_word1 [] cur rest (Forall_nil _) L) as X; cbn [app] in X; rewrite app_nil_r in X; rewrite X; reflexivity).
  - assert (A1 : ~ In 39 s) by (intros X; apply N1; right; exact X). assert (A2 : ~ In 34 s) by (intros X; apply N2; right; exact X).
    assert (B1 : c <> 39) by (intros ->; apply N1; left; reflexivity). assert (B2 : c <> 34) by (intros ->; apply N2; left; reflexivity).
    cbn [app]. destruct M as [-> | ->]; cbn [lex].
    + destruct (space c); [apply IH; auto|]. destruct (mark c); [cbn [app]; f_equal; apply IH; auto|]. replace ((c =? 39) || (c =? 34)) with false by lia. apply IH; auto.
    + destruct (space c); [cbn [app]; f_equal; apply IH; auto|]. destruct (mark c); [cbn [app]; do 2 f_equal; apply IH; auto|]. apply IH; auto.
Qed.
Lemma lex_marks : forall s m cur k, m = m_none \/ m = m_word -> ~ In 39 s -> ~ In 34 s -> In (p_mark k) (lex m cur s) -> In k s.
Proof.
  induction s as [|c s IH]; intros m cur k M N1 N2 I.
  - destruct M as [-> | ->]; cbn in I; [destruct I|destruct I as [I|[]]; discriminate I].
  - assert (A1 : ~ In 39 s) by (intros X; apply N1; right; exact X). assert (A2 : ~ In 34 s) by (intros X; apply N2; right; exact X).
    assert (B1 : c <> 39) by (intros ->; apply N1; left; reflexivity). assert (B2 : c <> 34) by (intros ->; apply N2; left; reflexivity).
    destruct M as [-> | ->]; cbn [lex] in I.
    + destruct (space c); [right; eapply IH; [| | |exact I]; auto|]. destruct (mark c); [cbn [In] in I; destruct I as [I|I]; [injection I as ->; left; reflexivity|right; eapply IH; [| | |exact I]; auto]|].
      replace ((c =? 39) || (c =? 34)) with false in I by lia. right. eapply IH; [| | |exact I]; auto.
    + destruct (space c); [cbn [In] in I; destruct I as [I|I]; [discriminate I|right; eapply IH; [| | |exact I]; auto]|]. destruct (mark c); [cbn [In] in I; destruct I as [I|[I|I]]; [discriminate I|injection I as ->; left; reflexivity|right; eapply IH; [| | |exact I]; auto]|].
      right. eapply IH; [| | |exact I]; auto.
Qed.
Lemma lex_opens : forall s, Forall (fun c => 32 <= c) s -> ~ In 39 s -> ~ In 34 s -> hd_error (lex m_none [] s) = Some (p_mark 40) -> opens s = true.
Proof.
  assert (W : forall s cur, ~ hd_error (lex m_word cur s) = Some (p_mark 40)).
  { induction s as [|c s IH]; intros cur; cbn [lex]; [discriminate|]. destruct (space c); [discriminate|]. destruct (mark c); [discriminate|]. apply IH. }
  induction s as [|c s IH]; intros F N1 N2 H; [discriminate H|]. inversion F as [|? ? C F']; subst. cbn [lex] in H. cbn [opens].
  assert (A1 : ~ In 39 s) by (intros X; apply N1; right; exact X). assert (A2 : ~ In 34 s) by (intros X; apply N2; right; exact X).
  assert (B1 : c <> 39) by (intros ->; apply N1; left; reflexivity). assert (B2 : c <> 34) by (intros ->; apply N2; left; reflexivity).
  destruct (space c) eqn:S.
  - unfold space in S. assert (c = 32) by lia. subst c. change (32 =? 32) with true. cbv iota. apply IH; assumption.
  - unfold space in S. destruct (Z.eqb_spec c 32); [subst c; discriminate S|]. destruct (mark c); [injection H as ->; reflexivity|]. replace ((c =? 39) || (c =? 34)) with false in H by lia. exfalso. exact (W _ _ H).
Qed.
Lemma odd_not_in : forall s c, odd_text s = false -> odd_char c = true -> ~ In c s.
Proof.
  induction s as [|d s IH]; intros c O C; [intros []|]. cbn [odd_text] in O. apply Bool.orb_false_iff in O. destruct O as [O1 O2]. apply Bool.orb_false_iff in O1. destruct O1 as [O1 _].
  intros [->|I]; [congruence|exact (IH c O2 C I)].
Qed.
(** An explanatory text, written. *)
Lemma text_read : forall dim t, safe_text t -> exists ps, lex1 (match t with [] => [] | _ => q_text (dim =? 0) t end) ps /\ text_parts dim t ps.
Proof.
  intros dim t [_ [CH QT]]. destruct t as [|c t]; [exists []; split; [intros rest _; reflexivity|left; split; reflexivity]|]. unfold q_text. set (s := c :: t) in *.
  destruct (((dim =? 0) && opens s) || odd_text s) eqn:Q.
  - destruct (qq_cases s QT) as [QC NQ]. exists [p_text s]. split; [|right; left; split; [discriminate|reflexivity]]. intros rest L. cbn [app lex]. change (space 32) with true. cbv iota.
    exact (lex_quoted (qq s) s QC NQ rest).
  - apply Bool.orb_false_iff in Q. destruct Q as [Q1 Q2]. assert (N1 : ~ In 39 s) by (apply odd_not_in; [exact Q2|reflexivity]). assert (N2 : ~ In 34 s) by (apply odd_not_in; [exact Q2|reflexivity]).
    exists (parts_of s). split.
    + intros rest L. cbn [app lex]. change (space 32) with true. cbv iota. apply lex_raw; auto.
    + right. right. split; [reflexivity|]. split; [exact N1|]. split; [exact N2|].
      assert (MK : forall k, odd_char k = true -> ~ In (p_mark k) (parts_of s)) by (intros k K X; apply lex_marks in X; auto; exact (odd_not_in s k Q2 K X)).
      split; [apply MK; reflexivity|]. split; [apply MK; reflexivity|]. split; [apply MK; reflexivity|]. intros -> X. apply lex_opens in X; auto. rewrite X in Q1. discriminate Q1.
Qed.
Lemma text_space : forall dim t, match (match t with [] => [] | _ => q_text (dim =? 0) t end) with [] => True | c :: _ => c = 32 end.
Proof. intros dim [|c t]; [exact Logic.I|reflexivity]. Qed.

Lemma front_words : forall typ dim uinfo, 0 <= typ <= dt_equ -> lex0 (type_front typ dim uinfo ++ [32]) (words (kind_words typ dim uinfo)).
Proof.
  intros typ dim uinfo T. assert (C : typ = 0 \/ typ = 1 \/ typ = 2 \/ typ = 3) by (unfold dt_equ in T; lia). unfold type_front, sub_type, kind_words. destruct C as [->|[->|[->| ->]]].
  - change (0 =? dt_par) with false. rewrite Bool.andb_false_r. change (0 =? dt_set) with true. cbv iota. destruct (uinfo =? 1); intros rest; reflexivity.
  - change (1 =? dt_par) with true. rewrite Bool.andb_true_r. change (1 =? dt_set) with false. change (1 =? dt_var) with false. change (1 =? dt_equ) with false. cbv iota. destruct (dim =? 0); intros rest; reflexivity.
  - change (2 =? dt_par) with false. rewrite Bool.andb_false_r. change (2 =? dt_set) with false. change (2 =? dt_var) with true. cbv iota zeta.
    assert (C : uinfo = 0 \/ uinfo = 1 \/ uinfo = 2 \/ uinfo = 3 \/ uinfo = 4 \/ uinfo = 6 \/ uinfo = 7 \/ uinfo = 8 \/ uinfo = 9 \/ (if (uinfo <? 0) || (9 <? uinfo) then 5 else uinfo) = 5 /\ (uinfo < 0 \/ uinfo = 5 \/ 9 < uinfo)).
    { destruct ((uinfo <? 0) || (9 <? uinfo)) eqn:U; lia. }
    repeat (destruct C as [->|C]; [intros rest; reflexivity|]). destruct C as [-> C].
    assert (X : forall (A : Type) (a0 a1 a2 a3 a4 a6 a7 a8 a9 d : A), match uinfo with 0 => a0 | 1 => a1 | 2 => a2 | 3 => a3 | 4 => a4 | 6 => a6 | 7 => a7 | 8 => a8 | 9 => a9 | _ => d end = d).
    { intros. destruct uinfo as [|p|p]; [lia| |reflexivity]. do 4 (try (destruct p as [p|p|]; try reflexivity; try lia)). }
    rewrite X. intros rest. reflexivity.
  - change (3 =? dt_par) with false. rewrite Bool.andb_false_r. change (3 =? dt_set) with false. change (3 =? dt_var) with false. change (3 =? dt_equ) with true. cbv iota zeta.
    destruct (Z.eqb_spec uinfo 6) as [->|NE]; [intros rest; reflexivity|]. destruct ((uinfo <? 0) || (6 <? uinfo)); [intros rest; reflexivity|]. destruct (Z.eqb_spec uinfo 6); [contradiction|]. intros rest. reflexivity.
Qed.
Lemma ident_word : forall s, wf_ident s -> plain_word s.
Proof.
  intros s (_ & c & r & -> & L & F). split; [discriminate|]. assert (A : forall a, ident_char a -> space a || mark a || (a =? 39) || (a =? 34) = false).
  { intros a A. unfold ident_char, letter in A. unfold space, mark. cbn [existsb]. lia. }
  constructor; [apply A; unfold ident_char, letter in *; lia|]. eapply Forall_impl; [|exact F]. exact A.
Qed.

Section D.
Context (z : zlib).
Lemma ids_read : forall st nrs, (forall k, In k nrs -> 0 < k -> exists s dim typ st', exec z (gdxSymbolInfo k) st = Done (ret_is 1 [dim; typ] [s], st') /\ wf_ident s) ->
  exists l, dom_ids z nrs st = Done l /\ Forall2 (dom_name z st) nrs l /\ Forall plain_word l.
Proof.
  intros st. induction nrs as [|k nrs IH]; intros H; cbn [dom_ids]; [exists []; repeat split; constructor|]. destruct (IH (fun k' I => H k' (or_intror I))) as (l & E & F2 & FW).
  destruct (Z.leb_spec k 0) as [K|K].
  - cbn [obind]. rewrite E. cbn [obind ret_s r_strs hd]. exists (s2z "*" :: l). split; [reflexivity|]. split; [constructor; [left; auto|exact F2]|]. constructor; [|exact FW]. split; [discriminate|]. repeat constructor.
  - destruct (H k (or_introl eq_refl) K) as (s & dim & typ & st' & EX & W). rewrite EX. cbn [obind]. rewrite E. cbn [obind ret_is r_strs hd]. exists (s :: l). split; [reflexivity|].
    split; [constructor; [right; split; [exact K|]; exists dim, typ; split; [lia|eexists; exact EX]|exact F2]|]. constructor; [apply ident_word; exact W|exact FW].
Qed.
Lemma join_read : forall l, Forall plain_word l -> lex0 ([40] ++ join 44 l ++ [41]) (p_mark 40 :: commas (List.map (fun s => [p_text s]) l) ++ [p_mark 41]).
Proof.
  intros l F. apply (lex0_app [40] _ [p_mark 40]); [intros rest; reflexivity|]. destruct l as [|a l]; [intros rest; reflexivity|].
  revert a F. induction l as [|b l IH]; intros a F; inversion F as [|? ? A F']; subst.
  - cbn [join List.map commas]. apply (lex10 a [41] [p_text a] [p_mark 41]); [apply lex_word; exact A|intros rest; reflexivity|intros rest; reflexivity].
  - change (join 44 (a :: b :: l)) with (a ++ 44 :: join 44 (b :: l)). change (commas (List.map (fun s => [p_text s]) (a :: b :: l))) with ([p_text a] ++ p_mark 44 :: commas (List.map (fun s => [p_text s]) (b :: l))).
    rewrite <- !app_assoc. apply (lex10 a _ [p_text a]); [apply lex_word; exact A| |intros rest; reflexivity]. exact (lex0_app [44] (join 44 (b :: l) ++ [41]) [p_mark 44] _ (fun rest => eq_refl) (IH b F')).
Qed.
End D.

(** The declaration of a symbol without comments: the kind, the name, the domain, the
    explanatory text, and the line that loads the data. *)
Theorem C68_declaration : forall z name prod compr cs rs st st2 n id dim typ cnt uinfo t nrs fuel, reopened z name prod compr cs rs st st2 ->
  symbol z st2 n id dim typ -> typ <> dt_alias -> answers z st2 (gdxSymbolInfoX n) (ret_is 1 [cnt; uinfo] [t]) -> answers z st2 (gdxSymbolGetComment n 1) (ret_s 0 [[]]) ->
  answers z st2 (gdxSymbolGetDomain n) (ret_i 1 nrs) ->
  exists text doms ps, declaration z (S fuel) n st2 = Done text /\ Forall2 (dom_name z st2) nrs doms /\ text_parts dim t ps /\
    parts_of text = words (kind_words typ dim uinfo) ++ [p_text id] ++ (if 1 <=? dim then p_mark 40 :: commas (List.map (fun s => [p_text s]) doms) ++ [p_mark 41] else []) ++ ps ++ [p_mark 59] ++
      (if cnt =? 0 then words [s2z "!!empty"; s2z "$loadDC"; id; s2z "!!empty"] else words [s2z "$loadDC"; id]).
Proof.
  intros z name prod compr cs rs st st2 n id dim typ cnt uinfo t nrs fuel RO SY NA (sx & IX) (sc & GC) (sd & GD). pose proof (file_domain_numbers _ _ _ _ _ _ _ _ _ _ _ _ _ RO SY (ex_intro _ sd GD)) as HD.
  assert (FS : forall k s d ty, symbol z st2 k s d ty -> wf_ident s /\ 0 <= ty <= dt_alias /\ forall c u x s', exec z (gdxSymbolInfoX k) st2 = Done (ret_is 1 [c; u] [x], s') -> safe_text x).
  { intros k s d ty S. pose proof S as S'. apply symbol_iff in S'. destruct S' as (s0 & ZN & _). pose proof (znth_Some _ _ _ ZN) as R.
    destruct (file_symbol _ _ _ _ _ _ _ _ k RO ltac:(unfold sym_count; lia)) as (id' & dim' & typ' & cnt' & u' & t' & EI & EX & _ & WI & _ & T0 & ST). destruct S as (_ & s1 & EI'). rewrite EI in EI'. injection EI' as <- <- <- <-.
    split; [exact WI|]. split; [exact T0|]. intros c u x s' E. rewrite EX in E. injection E as _ _ <- _. exact ST. }
  destruct (FS _ _ _ _ SY) as (WI & T0 & ST). specialize (ST _ _ _ _ IX). destruct SY as (N0 & ss & SI).
  destruct (ids_read z st2 nrs) as (doms & ED & F2 & FW).
  { intros k I K. destruct (HD k I K) as (s & d & ty & S). pose proof (FS _ _ _ _ S) as (W & _). destruct S as (_ & s' & E). exists s, d, ty, s'. auto. }
  destruct (text_read dim t ST) as (ps & RT & TP).
  unfold declaration. rewrite SI. cbn [obind ret_is r_ints r_strs nth hd]. rewrite IX. cbn [obind ret_is r_ints r_strs nth hd]. cbv zeta. cbn [comment_lines]. rewrite GC. cbn [obind ret_s r_code]. change (0 =? 0) with true. cbv iota. cbn [obind].
  destruct (Z.eqb_spec typ dt_alias); [contradiction|].
  assert (DP : domain_part z n dim st2 = Done (if 1 <=? dim then [40] ++ join 44 doms ++ [41] else [])).
  { unfold domain_part. destruct (1 <=? dim); [|reflexivity]. rewrite GD. cbn [obind ret_i r_ints]. rewrite ED. reflexivity. }
  rewrite DP. cbn [obind]. eexists. exists doms, ps. split; [reflexivity|]. split; [exact F2|]. split; [exact TP|].
  set (tx := match t with [] => [] | _ => q_text (dim =? 0) t end) in *. pose proof (text_space dim t) as TS. fold tx in TS.
  set (tail := if cnt =? 0 then s2z " ; !!empty" ++ [ch_eol] ++ s2z "$loadDC " ++ id ++ s2z " !!empty" ++ [ch_eol] else s2z " ;" ++ [ch_eol] ++ s2z "$loadDC " ++ id ++ [ch_eol]).
  set (tailp := [p_mark 59] ++ (if cnt =? 0 then words [s2z "!!empty"; s2z "$loadDC"; id; s2z "!!empty"] else words [s2z "$loadDC"; id])).
  assert (LT : lex0 tail tailp).
  { unfold tail, tailp. pose proof (lex_word id (ident_word id WI)) as LW. destruct (cnt =? 0).
    - intros rest. exact (f_equal (fun x => p_mark 59 :: p_text (s2z "!!empty") :: p_text (s2z "$loadDC") :: x) (lex10 id (s2z " !!empty" ++ [ch_eol]) [p_text id] [p_text (s2z "!!empty")] LW (fun r => eq_refl) (fun r => eq_refl) rest)).
    - intros rest. exact (f_equal (fun x => p_mark 59 :: p_text (s2z "$loadDC") :: x) (lex10 id [ch_eol] [p_text id] [] LW (fun r => eq_refl) (fun r => eq_refl) rest)). }
  assert (ET : forall rest, lends (tail ++ rest)) by (intros rest; unfold tail; destruct (cnt =? 0); reflexivity).
  assert (L1 : lex0 (tx ++ tail) (ps ++ tailp)) by (apply lex10; assumption).
  assert (E1 : forall rest, lends ((tx ++ tail) ++ rest)).
  { intros rest. rewrite <- app_assoc. destruct tx as [|c tx']; [apply ET|]. subst c. reflexivity. }
  set (dm := if 1 <=? dim then [40] ++ join 44 doms ++ [41] else []). set (dmp := if 1 <=? dim then p_mark 40 :: commas (List.map (fun s => [p_text s]) doms) ++ [p_mark 41] else []).
  assert (LD : lex0 dm dmp) by (unfold dm, dmp; destruct (1 <=? dim); [apply join_read; exact FW|apply lex0_nil]).
  assert (L2 : lex0 (dm ++ tx ++ tail) (dmp ++ ps ++ tailp)) by (apply lex0_app; assumption).
  assert (E2 : forall rest, lends ((dm ++ tx ++ tail) ++ rest)) by (intros rest; rewrite <- app_assoc; unfold dm; destruct (1 <=? dim); [reflexivity|apply E1]).
  assert (L3 : lex0 (id ++ dm ++ tx ++ tail) ([p_text id] ++ dmp ++ ps ++ tailp)) by (apply lex10; [apply lex_word, ident_word; exact WI|exact L2|exact E2]).
  assert (L4 : lex0 ([ch_eol] ++ (type_front typ dim uinfo ++ [32]) ++ id ++ dm ++ tx ++ tail) (words (kind_words typ dim uinfo) ++ [p_text id] ++ dmp ++ ps ++ tailp)).
  { apply (lex0_app [ch_eol] _ []); [intros rest; reflexivity|]. apply lex0_app; [apply front_words; unfold dt_alias, dt_equ in *; lia|exact L3]. }
  unfold parts_of. specialize (L4 []). rewrite <- (app_assoc (type_front typ dim uinfo)) in L4. cbn [lex] in L4. rewrite !app_nil_r in L4. exact L4.
Qed.

(** The declaration of an alias: its name and the name of what it stands for. *)
Theorem C68_alias : forall z name prod compr cs rs st st2 n k fuel, reopened z name prod compr cs rs st st2 ->
  alias_of z st2 n k -> answers z st2 (gdxSymbolGetComment n 1) (ret_s 0 [[]]) ->
  exists text id dim s, declaration z (S fuel) n st2 = Done text /\ symbol z st2 n id dim dt_alias /\ dom_name z st2 k s /\ 0 <= k < n /\
    parts_of text = [p_text (s2z "Alias"); p_mark 40; p_text id; p_mark 44; p_text s; p_mark 41; p_mark 59].
Proof.
  intros z name prod compr cs rs st st2 n k fuel RO A (sc & GC). apply alias_of_iff in A. destruct A as (id & s0 & ZN & T & U). pose proof (znth_Some _ _ _ ZN) as R.
  destruct (file_symbol _ _ _ _ _ _ _ _ n RO ltac:(unfold sym_count; lia)) as (id' & dim & typ & cnt & u & t & EI & EX & SY & WI & _ & _ & _).
  assert (TY : typ = dt_alias /\ u = k).
  { cbn [exec] in EI, EX. unfold symbol_info in EI. unfold symbol_info_x, get_sym in EX. destruct (Z.eqb_spec n 0); [lia|]. rewrite ZN in *. cbn [option_map snd] in EX. injection EI as _ E _. injection EX as _ E2 _. split; congruence. }
  destruct TY as [-> ->].
  assert (K : 0 <= k < n).
  { destruct (reopened_tables _ _ _ _ _ _ _ _ RO) as (D & _). pose proof RO as (W & _). apply writes_in_writing in W. apply writing_syms in W.
    assert (G : get_sym (g_dic st2) n = Some s0) by (unfold get_sym; rewrite ZN; reflexivity). rewrite D, loaded_sym in G. destruct (get_sym (g_dic st) n) as [s1|] eqn:G1; [|discriminate G]. injection G as <-.
    assert (S1 : sy_type s1 = dt_alias /\ sy_uinfo s1 = k) by (split; [exact T|exact U]). destruct S1 as [S1 S2]. destruct (W _ _ G1) as [(X & _)|[(_ & X & _)|(_ & X & _)]]; [unfold dt_equ, dt_alias in *; lia|lia|lia]. }
  assert (X : exists r s' s, (if k =? 0 then Done (ret_s 0 [s2z "*"], st2) else exec z (gdxSymbolInfo k) st2) = Done (r, s') /\ hd [] (r_strs r) = s /\ dom_name z st2 k s /\ plain_word s).
  { destruct (Z.eqb_spec k 0) as [->|NE].
    - eexists. eexists. eexists. split; [reflexivity|]. split; [reflexivity|]. split; [left; split; [lia|reflexivity]|]. split; [discriminate|repeat constructor].
    - destruct (file_symbol _ _ _ _ _ _ _ _ k RO ltac:(unfold sym_count; lia)) as (id2 & dim2 & typ2 & cnt2 & u2 & t2 & EI2 & _ & SY2 & WI2 & _). rewrite EI2. eexists. eexists. exists id2. split; [reflexivity|]. split; [reflexivity|].
      split; [right; split; [lia|]; exists dim2, typ2; exact SY2|apply ident_word; exact WI2]. }
  destruct X as (r & s' & s & EK & HR & DN & PW).
  unfold declaration. rewrite EI. cbn [obind ret_is r_ints r_strs nth hd]. rewrite EX. cbn [obind ret_is r_ints r_strs nth hd]. cbv zeta. cbn [comment_lines]. rewrite GC. cbn [obind ret_s r_code]. change (0 =? 0) with true. cbv iota. cbn [obind].
  change (dt_alias =? dt_alias) with true. cbv iota. rewrite EK. cbn [obind]. rewrite HR. eexists. exists id', dim, s. split; [reflexivity|]. split; [exact SY|]. split; [exact DN|]. split; [exact K|].
  assert (L : lex0 (([ch_eol] ++ s2z "Alias (") ++ id' ++ s2z ", " ++ s ++ (s2z ");" ++ [ch_eol])) ([p_text (s2z "Alias"); p_mark 40] ++ [p_text id'] ++ [p_mark 44] ++ [p_text s] ++ [p_mark 41; p_mark 59])).
  { apply lex0_app; [intros rest; reflexivity|]. apply lex10; [apply lex_word, ident_word; exact WI| |intros rest; reflexivity]. apply lex0_app; [intros rest; reflexivity|]. apply lex10; [apply lex_word; exact PW|intros rest; reflexivity|intros rest; reflexivity]. }
  specialize (L []). cbn [lex] in L. rewrite !app_nil_r in L. exact L.
Qed.

(** ** Cases *)

Example C68_case : exists text doms ps, declaration rle_zlib 1 5 case_read = Done text /\ Forall2 (dom_name rle_zlib case_read) [1] doms /\ text_parts 1 (s2z "capacity") ps /\
  parts_of text = words (kind_words dt_par 1 0) ++ [p_text (s2z "cap")] ++ (p_mark 40 :: commas (List.map (fun s => [p_text s]) doms) ++ [p_mark 41]) ++ ps ++ [p_mark 59] ++ words [s2z "$loadDC"; s2z "cap"].
Proof.
  refine (C68_declaration rle_zlib _ _ _ _ _ _ case_read 5 (s2z "cap") 1 dt_par 2 0 (s2z "capacity") [1] 0 case_reopened _ _ _ _ _); [split; [lia|ans]|discriminate|ans|ans|ans].
Qed.
Example C68_case_text : declaration rle_zlib 1 5 case_read = Done ([10] ++ s2z "Parameter cap(I) capacity ;" ++ [10] ++ s2z "$loadDC cap" ++ [10]).
Proof. vm_compute. reflexivity. Qed.
Example C68_case_variable : declaration rle_zlib 1 7 case_read = Done ([10] ++ s2z "positive Variable X(*) shipment ;" ++ [10] ++ s2z "$loadDC X" ++ [10]).
Proof. vm_compute. reflexivity. Qed.
Example C68_case_alias : exists text id dim s, declaration rle_zlib 1 2 case_read = Done text /\ symbol rle_zlib case_read 2 id dim dt_alias /\ dom_name rle_zlib case_read 1 s /\ 0 <= 1 < 2 /\
  parts_of text = [p_text (s2z "Alias"); p_mark 40; p_text id; p_mark 44; p_text s; p_mark 41; p_mark 59].
Proof.
  refine (C68_alias rle_zlib _ _ _ _ _ _ case_read 2 1 0 case_reopened _ _); [|ans]. split; [exists (s2z "II"), 1; split; [lia|ans]|]. vm_compute. eauto 8.
Qed.

(** The condition that there are no comments is needed: the first comment is written behind
    the explanatory text, on the same line, and joins it. *)
Definition dc_calls : list call :=
  [gdxOpenWriteEx (s2z "c.gdx") (s2z "test") 0; gdxDataWriteStrStart (s2z "i") (s2z "plants") 1 dt_set 0; gdxDataWriteStr [s2z "x"] [0]; gdxDataWriteDone; gdxSymbolAddComment 1 (s2z "old"); gdxClose;
   gdxOpenReadEx (s2z "c.gdx") 0].
Definition dc_read : gst := state_of (run rle_zlib dc_calls (new_object [])).
Theorem C68_comment_refuted : exists rs st text, run rle_zlib dc_calls (new_object []) = Done (rs, st) /\ symbol rle_zlib st 1 (s2z "i") 1 dt_set /\
  answers rle_zlib st (gdxSymbolInfoX 1) (ret_is 1 [1; 0] [s2z "plants"]) /\ declaration rle_zlib 2 1 st = Done text /\
  parts_of text = words [s2z "Set"; s2z "i"] ++ [p_mark 40; p_text (s2z "*"); p_mark 41] ++ words [s2z "plants*"; s2z "old"] ++ [p_mark 59] ++ words [s2z "$loadDC"; s2z "i"].
Proof.
  exists (answer_of (run rle_zlib dc_calls (new_object []))), dc_read, ([10] ++ s2z "Set i(*) plants* old" ++ [10] ++ s2z " ;" ++ [10] ++ s2z "$loadDC i" ++ [10]).
  split; [vm_compute; reflexivity|]. split; [split; [lia|ans]|]. split; [ans|]. split; vm_compute; reflexivity.
Qed.

Print Assumptions C68_declaration.
Print Assumptions C68_alias.
Print Assumptions C68_comment_refuted.
