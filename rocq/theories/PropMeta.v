(** * Properties of what a file tells about itself when it is opened again: C20, C32, C33, C34, C35, C40

    "Metadata" is everything but the records: symbols, labels, element texts, comments,
    domains, acronyms, and who wrote the file. *)

From Coq Require Import String.
From Verif Require Import Base Prim Values Records LinkedData StrHash IntMap Strings AStream BufStream State
  FileImage ApiCore ApiFile ApiWrite ApiRead Api FileFacts BlockFacts StreamFacts OpenFacts DicInv WriteInv WriteTrace
  Footprint SessInv FileFlow Sessions Vocab Reopen Cases PropNames.
Open Scope Z_scope.
Open Scope list_scope.

(** ** Opening succeeds *)

Theorem C20_closed_files_open : forall z name prod compr cs rs st r st1, writes z name prod compr cs rs st -> between_symbols st ->
  exec z gdxClose st = Done (r, st1) -> counters_fit (g_dic st) ->
  r_code r = 0 /\ closed st1 /\
  exists F, disk_get (e_disk (g_env st1)) name = Some F /\
    (zlen F < 2^63 -> forall rd rm, closed rd -> disk_get (e_disk (g_env rd)) name = Some F -> Z.rem rm 2 = 0 ->
     exists st2, exec z (gdxOpenReadEx name rm) rd = Done (ret_i 1 [0], st2)).
Proof.
  intros z name prod compr cs rs st r st1 W M E CF. destruct (writes_jinv _ _ _ _ _ _ _ W) as (_ & _ & NE).
  destruct (saved_ok _ _ _ _ _ _ _ _ _ W M E) as (-> & CL & F & m & G & RR & DG & _ & _ & C).
  split; [reflexivity|]. split; [exact CL|]. exists F. split; [exact DG|]. intros SZ rd rm CR DR RM.
  destruct (reopen_ok z _ _ _ _ _ _ _ _ (C CF SZ) CR NE DR RM) as (s & ops & _ & O). eauto.
Qed.

(** ** The tables *)

Lemma reopened_tables : forall z name prod compr cs rs st st2, reopened z name prod compr cs rs st st2 ->
  g_dic st2 = loaded (contents_of (g_dic st)) /\ f_prod (g_fil st2) = prod /\ f_prod (g_fil st) = prod /\
  f_sysid (g_fil st2) = f_sysid (g_fil st) /\ f_compr (g_fil st2) = f_compr (g_fil st) /\ f_compr (g_fil st) = compr mod 2 /\
  g_mode st2 = fr_init /\ writes z name prod compr cs rs st /\ opened_to_read z st2 /\ d_nn (g_dic st) = true /\ d_un (g_dic st) = true /\
  (exists l, d_texts (g_dic st) = Some l) /\ Forall acro_wf (d_acros (g_dic st)) /\ dic_fits (g_dic st) = true.
Proof.
  intros z name prod compr cs rs st st2 (W & M & r & st1 & F & rd & rm & E & DG & CF & SZ & CR & DR & RM & O).
  destruct (writes_jinv _ _ _ _ _ _ _ W) as ((J & JI) & _ & NE).
  destruct (saved_ok _ _ _ _ _ _ _ _ _ W M E) as (-> & CL & F' & m & G & RR & DG' & _ & _ & C). rewrite DG in DG'. injection DG' as <-.
  specialize (C CF SZ). pose proof (cp_dinv _ _ _ _ _ _ C) as (np & DI).
  destruct (reopen_ok z _ _ _ _ _ _ _ _ C CR NE DR RM) as (s & ops & _ & O'). pose proof O as O2. rewrite O' in O. injection O as <-.
  destruct JI as [(t & G' & [CO _] & _)|(_ & D & _)]; [|exfalso; unfold between_symbols in M; rewrite M in D; unfold data_modes in D; cbn in D; intuition discriminate].
  destruct (co_hd _ _ _ _ _ CO) as (H1 & H2 & H3).
  assert (FIT : dic_fits (g_dic st) = true).
  { cbn [exec] in E. unfold close in E. unfold between_symbols in M. rewrite M in E. change (mode_in fw_init [fw_raw_data; fw_map_data; fw_str_data]) with false in E.
    cbv iota in E. cbn [obind] in E. rewrite M in E. change (mode_in fw_init [fw_init]) with true in E. cbv iota in E.
    unfold finalize in E. cbv zeta in E. destruct (dic_fits (g_dic st)); [reflexivity|discriminate]. }
  split; [reflexivity|]. split; [reflexivity|]. split; [exact H2|]. split; [rewrite H1; reflexivity|]. split; [rewrite H3; reflexivity|].
  split; [exact H3|]. split; [reflexivity|]. split; [exact W|]. split; [exists rd, name, rm, (ret_i 1 [0]); auto|].
  split; [apply DI|]. split; [apply DI|]. split; [destruct (di_texts _ _ DI) as (l & L & _); eauto|]. split; [apply DI|exact FIT].
Qed.

Lemma sl_find_map : forall {A B} ci (f : A -> B) (l : list (str * A)) (l' : list (str * B)) s, List.map fst l = List.map fst l' -> sl_find ci l s = sl_find ci l' s.
Proof.
  intros A B ci f l l' s. unfold sl_find. generalize 0 as n. revert l'. induction l as [|e l IH]; intros [|e' l'] n H; cbn in *; try discriminate; [reflexivity|].
  injection H as H1 H2. rewrite (IH l' (n + 1) H2), H1. reflexivity.
Qed.
Lemma znth_map : forall {A B} (f : A -> B) l i, znth (List.map f l) i = option_map f (znth l i).
Proof. intros A B f l i. unfold znth. destruct (i <? 0); [reflexivity|]. apply nth_error_map. Qed.

Section L.
Context (d : dic).
Notation d2 := (loaded (contents_of d)).
Lemma loaded_names : List.map fst (d_names d2) = List.map fst (d_names d).
Proof. cbn. rewrite map_map. reflexivity. Qed.
Lemma loaded_uels : List.map fst (d_uels d2) = List.map fst (d_uels d).
Proof. cbn. rewrite !map_map. reflexivity. Qed.
Lemma loaded_sym : forall n, get_sym d2 n = option_map stored (get_sym d n).
Proof. intros n. unfold get_sym. cbn. rewrite znth_map. destruct (znth _ _) as [[a b]|]; reflexivity. Qed.
Lemma loaded_name : forall n, sym_name d2 n = sym_name d n.
Proof. intros n. unfold sym_name. cbn. rewrite znth_map. destruct (znth _ _) as [[a b]|]; reflexivity. Qed.
Lemma loaded_find : forall s, sym_find d2 s = sym_find d s.
Proof. intros s. unfold sym_find. rewrite (sl_find_map true stored (d_names d) (d_names d2) s); [reflexivity|]. symmetry. apply loaded_names. Qed.
Lemma loaded_uel_find : forall s, uel_find d2 s = uel_find d s.
Proof. intros s. unfold uel_find. rewrite (sl_find_map true (fun x : Z => x) (d_uels d) (d_uels d2) s); [reflexivity|]. symmetry. apply loaded_uels. Qed.
Lemma loaded_dstr : forall k, option_map fst (znth (d_dstrs d2) k) = option_map fst (znth (d_dstrs d) k).
Proof. intros k. cbn. rewrite !znth_map. destruct (znth _ _); reflexivity. Qed.
End L.
Lemma dom_names_ext : forall f g l, (forall k, f k = g k) -> dom_names f l = dom_names g l.
Proof. intros f g l H. induction l as [|n l IH]; [reflexivity|]. cbn [dom_names]. rewrite H, IH. reflexivity. Qed.

(** Questions about the symbols and the file that are answered alike by the object that
    wrote the file, just before closing it, and by an object that has opened it. *)
Definition metadata (q : call) : Prop :=
  match q with
  | gdxFindSymbol _ | gdxSymbolInfo _ | gdxSymbolDim _ | gdxSymbolGetDomain _ | gdxSymbolGetDomainX _
  | gdxSetHasText _ | gdxSymbolGetComment _ _ | gdxSystemInfo | gdxSymbMaxLength | gdxUELMaxLength
  | gdxFileVersion | gdxAcronymCount => True
  | gdxSymbolInfoX n => n <> 0
  | _ => False
  end.

Theorem C20_metadata_is_found_again : forall z name prod compr cs rs st st2 q, reopened z name prod compr cs rs st st2 -> metadata q ->
  same_answer z st st2 q.
Proof.
  intros z name prod compr cs rs st st2 q RO Q.
  destruct (reopened_tables _ _ _ _ _ _ _ _ RO) as (D & P2 & P1 & SI & _ & _ & _ & _ & _ & NN & UN & TX & _).
  set (d := g_dic st) in *.
  destruct q; try (exfalso; exact Q); intros r; unfold answers; cbn [exec].
  - unfold symb_max_length. fold d. rewrite D, NN. cbn [d_nn loaded]. rewrite loaded_names. split; intros (x & H); injection H as <- _; eauto.
  - unfold uel_max_length. fold d. rewrite D, UN. cbn [d_un loaded]. rewrite loaded_uels. split; intros (x & H); injection H as <- _; eauto.
  - unfold find_symbol. fold d. rewrite D, NN, loaded_find. cbn [d_nn loaded]. destruct (str_eqb _ _); split; intros (x & H); injection H as <- _; eauto.
  - unfold symbol_info. fold d. rewrite D. cbn [d_names loaded c_syms contents_of]. rewrite znth_map. destruct (synr =? 0); [|destruct (znth _ _) as [[u v]|]]; cbn [option_map fst snd]; split; intros (x & H); injection H as <- _; eauto.
  - unfold symbol_dim. fold d. rewrite D, loaded_sym. destruct (synr =? 0); [|destruct (get_sym d synr) as [s|]]; cbn [option_map]; split; intros (x & H); injection H as <- _; eauto.
  - cbn in Q. unfold symbol_info_x. fold d. rewrite D, loaded_sym. destruct (Z.eqb_spec synr 0); [contradiction|]. destruct (get_sym d synr) as [s|]; cbn [option_map]; split; intros (x & H); injection H as <- _; eauto.
  - unfold symbol_get_domain, fail_with. fold d. rewrite D, loaded_sym, NN. cbn [d_nn loaded negb]. destruct (get_sym d synr) as [s|]; cbn [option_map stored set_sy_scalar set_sy_bits sy_doms sy_dim]; [destruct (sy_doms s)|]; split; intros (x & H); injection H as <- _; eauto.
  - unfold symbol_get_domain_x, fail_with. fold d. rewrite D, loaded_sym, NN. cbn [d_nn loaded negb]. destruct (get_sym d synr) as [s|]; cbn [option_map stored set_sy_scalar set_sy_bits sy_doms sy_dstrs sy_dim].
    2: split; intros (x & H); injection H as <- _; eauto.
    destruct (sy_dstrs s) as [l|]; [|destruct (sy_doms s) as [l|]].
    + rewrite (dom_names_ext (fun k => option_map fst (znth (d_dstrs (loaded (contents_of d))) (k - 1))) (fun k => option_map fst (znth (d_dstrs d) (k - 1)))) by (intros; apply loaded_dstr).
      destruct (dom_names _ l) as [ss|]; cbn [obind]; split; intros (x & H); try discriminate H; injection H as <- _; eauto.
    + rewrite (dom_names_ext (sym_name (loaded (contents_of d))) (sym_name d)) by (intros; apply loaded_name).
      destruct (dom_names _ l) as [ss|]; cbn [obind]; split; intros (x & H); try discriminate H; injection H as <- _; eauto.
    + split; intros (x & H); injection H as <- _; eauto.
  - unfold set_has_text. fold d. rewrite D, loaded_sym. destruct (get_sym d synr) as [s|]; cbn [option_map]; split; intros (x & H); injection H as <- _; eauto.
  - unfold symbol_get_comment. fold d. rewrite D, loaded_sym. destruct (get_sym d synr) as [s|]; cbn [option_map stored set_sy_scalar set_sy_bits sy_comments]; [destruct (znth _ _)|]; split; intros (x & H); injection H as <- _; eauto.
  - unfold system_info. fold d. rewrite D. unfold sym_count, uel_count. rewrite <- (zlen_map fst (d_names (loaded _))), <- (zlen_map fst (d_uels (loaded _))), loaded_names, loaded_uels, !zlen_map.
    split; intros (x & H); injection H as <- _; eauto.
  - unfold file_version. rewrite P1, P2, SI. split; intros (x & H); injection H as <- _; eauto.
  - unfold acronym_count. fold d. rewrite D. cbn [d_acros loaded c_acros contents_of]. rewrite zlen_map. split; intros (x & H); injection H as <- _; eauto.
Qed.

(** The labels with their numbers; user numbers are not stored. *)
Definition label (z : zlib) (st : gst) (n : Z) (s : str) : Prop := exists u, answers z st (gdxUMUelGet n) (ret_is 1 [u] [s]).
Definition label_found (z : zlib) (st : gst) (s : str) (n : Z) : Prop := exists u, answers z st (gdxUMFindUEL s) (ret_i 1 [n; u]).
(** The element texts with their numbers; node numbers are not stored. *)
Definition elem_text (z : zlib) (st : gst) (n : Z) (t : str) : Prop := exists node, answers z st (gdxGetElemText n) (ret_is 1 [node] [t]).
(** The acronyms; one without a name gets one when it is stored. *)
Definition acronym_is (z : zlib) (st : gst) (n : Z) (name text : str) (ix : Z) : Prop :=
  answers z st (gdxAcronymGetInfo n) (ret_is 1 [ix] [name; text]).

Lemma label_iff : forall z st n s, label z st n s <-> uel_text (g_dic st) n = Some s.
Proof.
  intros z st n s. unfold label, answers, uel_text. cbn [exec]. unfold um_uel_get. destruct (znth _ _) as [[t u]|]; cbn [option_map fst]; split.
  - intros (u' & st' & H). injection H as _ <- _. reflexivity.
  - intros H. injection H as <-. eauto.
  - intros (u' & st' & H). discriminate.
  - discriminate.
Qed.
Lemma elem_text_iff : forall z st n t, elem_text z st n t <-> exists l node, d_texts (g_dic st) = Some l /\ znth l n = Some (t, node).
Proof.
  intros z st n t. unfold elem_text, answers. cbn [exec]. unfold get_elem_text. split.
  - intros (node & st' & H). destruct (d_texts _) as [l|]; [|discriminate]. destruct (znth l n) as [[u v]|] eqn:E; [|discriminate]. injection H as _ <- _. eauto.
  - intros (l & node & -> & ->). eauto.
Qed.

Theorem C20_labels_are_found_again : forall z name prod compr cs rs st st2, reopened z name prod compr cs rs st st2 ->
  (forall n s, label z st n s <-> label z st2 n s) /\ (forall s n, label_found z st s n <-> label_found z st2 s n).
Proof.
  intros z name prod compr cs rs st st2 RO.
  destruct (reopened_tables _ _ _ _ _ _ _ _ RO) as (D & _ & _ & _ & _ & _ & _ & _ & _ & NN & UN & TX & _). split; intros n s.
  - rewrite !label_iff, D. unfold uel_text. cbn. rewrite !znth_map. destruct (znth _ _) as [[a b]|]; reflexivity.
  - unfold label_found, answers. cbn [exec]. unfold um_find_uel. rewrite D, UN. cbn [d_un loaded negb].
    destruct (trim_store n) as [t|]; cbn [obind]; [|split; intros (u & x & H); discriminate].
    rewrite loaded_uel_find. unfold user_map. cbn [d_uels loaded c_uels contents_of]. rewrite !znth_map.
    destruct (uel_find (g_dic st) t <? 0); [split; intros (u & x & H); discriminate|].
    destruct (znth _ _) as [[a b]|]; cbn [option_map obind snd fst]; split; intros (u & x & H); try discriminate H; injection H as <- _ _; eauto.
Qed.

Theorem C20_texts_are_found_again : forall z name prod compr cs rs st st2 n t, reopened z name prod compr cs rs st st2 ->
  elem_text z st n t <-> elem_text z st2 n t.
Proof.
  intros z name prod compr cs rs st st2 n t RO.
  destruct (reopened_tables _ _ _ _ _ _ _ _ RO) as (D & _ & _ & _ & _ & _ & _ & _ & _ & NN & UN & (l & TX) & _).
  rewrite !elem_text_iff, D. cbn [d_texts loaded]. unfold contents_of, texts_of. cbn [c_texts]. rewrite TX. split.
  - intros (l' & node & H & E). injection H as <-. eexists _, 0. split; [reflexivity|]. rewrite !znth_map, E. reflexivity.
  - intros (l' & node & H & E). injection H as <-. rewrite !znth_map in E. destruct (znth l n) as [[u v]|] eqn:Z; [|discriminate]. injection E as <- <-. eauto.
Qed.

Theorem C20_acronyms_are_found_again : forall z name prod compr cs rs st st2 n nm text ix, reopened z name prod compr cs rs st st2 ->
  nm <> [] -> acronym_is z st n nm text ix -> acronym_is z st2 n nm text ix.
Proof.
  intros z name prod compr cs rs st st2 n nm text ix RO NE (st' & H). cbn [exec] in H. unfold acronym_get_info in H.
  destruct (reopened_tables _ _ _ _ _ _ _ _ RO) as (D & _ & _ & _ & _ & _ & _ & _ & _ & NN & _).
  rewrite NN in H. cbn [negb] in H. destruct (znth _ _) as [a|] eqn:E; [|discriminate]. destruct (_ && _) eqn:B; [|discriminate].
  injection H as <- <- <- _. exists st2. cbn [exec]. unfold acronym_get_info. rewrite D. cbn [d_nn d_acros loaded negb c_acros contents_of].
  rewrite znth_map, E. cbn [option_map stored_acro ac_name ac_text ac_map]. unfold acro_saved_name. destruct (ac_name a); [contradiction NE; reflexivity|]. rewrite B. reflexivity.
Qed.

(** ** The hypotheses are met *)

Example C20_case_open : answers rle_zlib case_closed (gdxOpenReadEx (s2z "f.gdx") 0) (ret_i 1 [0]).
Proof. ans. Qed.
Example C20_case_symbols : answers rle_zlib case_read (gdxSymbolInfo 7) (ret_is 1 [1; 2] [s2z "X"]).
Proof. refine (proj1 (C20_metadata_is_found_again _ _ _ _ _ _ _ _ (gdxSymbolInfo 7) case_reopened I _) _). ans. Qed.
Example C20_case_domains : answers rle_zlib case_read (gdxSymbolGetDomainX 6) (ret_s 2 [s2z "I"; s2z "*"]).
Proof. refine (proj1 (C20_metadata_is_found_again _ _ _ _ _ _ _ _ (gdxSymbolGetDomainX 6) case_reopened I _) _). ans. Qed.
Example C20_case_labels : label rle_zlib case_read 2 (s2z "San-Diego").
Proof. refine (proj1 (proj1 (C20_labels_are_found_again _ _ _ _ _ _ _ _ case_reopened) _ _) _). eexists. ans. Qed.
Example C20_case_texts : elem_text rle_zlib case_read 1 (s2z "a text").
Proof. refine (proj1 (C20_texts_are_found_again _ _ _ _ _ _ _ _ _ _ case_reopened) _). eexists. ans. Qed.
Example C20_case_acronyms : acronym_is rle_zlib case_read 1 (s2z "monday") (s2z "first day") 7.
Proof. refine (C20_acronyms_are_found_again _ _ _ _ _ _ _ _ _ _ _ _ case_reopened _ _); [discriminate|ans]. Qed.

Print Assumptions C20_closed_files_open.
Print Assumptions C20_metadata_is_found_again.
Print Assumptions C20_labels_are_found_again.
Print Assumptions C20_texts_are_found_again.
Print Assumptions C20_acronyms_are_found_again.
