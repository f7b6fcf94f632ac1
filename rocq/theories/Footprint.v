(** * Footprint: everything a call can do to the object

    Every call other than opening, closing and freeing is a sequence of the small changes
    listed here.  An invariant of the object has to be checked against this list only. *)

From Coq Require Import String.
From Verif Require Import Messages.
From Verif Require Import Base Prim Values Records LinkedData StrHash IntMap Strings AStream BufStream State
  FileImage ApiCore ApiFile ApiWrite ApiRead Api FileFacts StreamFacts OpenFacts DicInv.
Open Scope Z_scope.
Open Scope list_scope.

(** ** Changes of the dictionaries *)

(** A change of a symbol that keeps what was fixed when it was added. *)
Definition sym_keeps (a b : sym) : Prop :=
  sy_dim b = sy_dim a /\ sy_type b = sy_type a /\ sy_uinfo b = sy_uinfo a /\ sy_expl b = sy_expl a /\
  sy_comp b = sy_comp a /\ sy_comments b = sy_comments a /\ sy_doms b = sy_doms a /\ sy_dstrs b = sy_dstrs a /\ (sy_bits b = None <-> sy_bits a = None).

(** A symbol as it is added: by a call that starts writing it, or as an alias. *)
Definition new_sym (d : dic) (s : sym) : Prop :=
  sy_comments s = [] /\ sy_doms s = None /\ sy_dstrs s = None /\ (sy_bits s <> None -> sy_type s = dt_set /\ sy_dim s = 1%nat) /\
  ((dt_set <= sy_type s <= dt_equ /\ (sy_dim s <= 20)%nat /\ exists t, sy_expl s = make_good (assign_expl t)) \/
   (sy_type s = dt_alias /\ sy_uinfo s = 0 /\ sy_dim s = 1%nat /\ sy_expl s = s2z "Aliased with *") \/
   (sy_type s = dt_alias /\ exists t nm, get_sym d (sy_uinfo s) = Some t /\ sym_name d (sy_uinfo s) = Some nm /\
      (sy_type t = dt_set \/ sy_type t = dt_alias) /\ sy_dim s = sy_dim t /\ alias_text nm = Done (sy_expl s))).

(** Which call may make which change. *)
Definition renames (c : call) : bool := match c with gdxRenameUEL _ _ => true | _ => false end.
Definition maps (c : call) : bool := match c with gdxUELRegisterMap _ _ => true | _ => false end.
Definition allows (M R : bool) (c : call) : Prop := (M = true \/ maps c = false) /\ (R = true \/ renames c = false).
Definition names_of (c : call) : list str :=
  match c with
  | gdxDataWriteRawStart n _ _ _ _ | gdxDataWriteRawStartKeyBounds n _ _ _ _ _ _ | gdxDataWriteMapStart n _ _ _ _ | gdxDataWriteStrStart n _ _ _ _ => [n]
  | gdxAddAlias a b => [a; b]
  | _ => []
  end.
Definition labels_of (c : call) : list str :=
  match c with
  | gdxDataWriteStr ks _ => ks
  | gdxUELRegisterRaw s | gdxUELRegisterStr s | gdxUELRegisterMap _ s => [s]
  | _ => []
  end.
(** The calls that are of use only while a file is written: they write into the file, add
    symbols, set domains, or enter a mode of writing. *)
Definition puts (c : call) : bool :=
  match c with
  | gdxDataWriteRawStart _ _ _ _ _ | gdxDataWriteRawStartKeyBounds _ _ _ _ _ _ _ | gdxDataWriteRaw _ _
  | gdxDataWriteMapStart _ _ _ _ _ | gdxDataWriteMap _ _ | gdxDataWriteStrStart _ _ _ _ _ | gdxDataWriteStr _ _
  | gdxDataWriteDone | gdxSymbolSetDomain _ | gdxAddAlias _ _ | gdxUELRegisterRawStart | gdxClose | gdxFree => true
  | _ => false
  end.
(** The calls that write records into the file. *)
Definition fills (c : call) : bool :=
  match c with gdxDataWriteRaw _ _ | gdxDataWriteDone | gdxClose | gdxFree => true | _ => false end.
Lemma fills_puts : forall c, fills c = true -> puts c = true.
Proof. intros []; cbn; congruence. Qed.
Definition read_modes : list gmode := [fr_init; fr_filter; fr_raw_data; fr_map_data; fr_mapr_data; fr_str_data; fr_slice].
Definition elem_modes : list gmode := [f_raw_elem; f_map_elem; f_str_elem].
(** The calls that give user numbers to labels. *)
Definition numbers (c : call) : bool :=
  match c with
  | gdxUELRegisterStr _ | gdxUELRegisterMap _ _
  | gdxDataReadRawStart _ | gdxDataReadStrStart _ | gdxDataReadMapStart _ | gdxDataReadFilteredStart _ _ | gdxDataReadMap _
  | gdxDataReadRawFast _ | gdxDataReadRawFastEx _ _ | gdxDataReadRawFastFilt _ _ _ | gdxDataReadSliceStart _ | gdxDataReadSlice _
  | gdxGetDomainElements _ _ _ _ | gdxSymbIndxMaxLength _ => true
  | _ => false
  end.

Section M.
(** The call that is made. *)
Context (cc : call).

Inductive datom : dic -> dic -> Prop :=
| D_newsym : forall d name s, In name (names_of cc) -> (1 <=? sym_find d name) = false -> (0 <=? acro_named name (d_acros d)) = false ->
    good_ident name = true -> new_sym d s -> datom d (set_d_names (d_names d ++ [(name, s)]) d)
| D_sym : forall d n f, (forall s, get_sym d n = Some s -> sym_keeps s (f s)) ->
    (puts cc = true \/ forall s, sy_pos (f s) = sy_pos s /\ sy_count (f s) = sy_count s) ->
    (fills cc = true \/ forall s, sy_settext (f s) = sy_settext s) -> datom d (upd_sym n f d)
| D_doms : forall d n f ids, cc = gdxSymbolSetDomain ids -> datom d (upd_sym n (fun s => set_sy_doms (f s) s) d)
| D_dstrs : forall d n ns ids, cc = gdxSymbolSetDomainX n ids -> datom d (upd_sym n (set_sy_dstrs (Some ns)) d)
| D_comment : forall d k n t, cc = gdxSymbolAddComment k t -> (0 < k -> n = k) ->
    datom d (upd_sym n (fun s => set_sy_comments (sy_comments s ++ [cut255 t]) s) d)
| D_uel : forall d s, In s (List.map trim_right (labels_of cc)) -> good_uel s = true -> trim_right s = s -> datom d (snd (uel_add s d))
| D_rename : forall d n e s o w, cc = gdxRenameUEL o w -> s = trim_right w -> uel_find d (trim_right o) = n -> good_uel s = true -> trim_right s = s -> uel_find d s < 0 -> znth (d_uels d) (n - 1) = Some e ->
    datom d (set_d_uels (zset (n - 1) (s, snd e) (d_uels d)) d)
| D_user : forall d en n m e, numbers cc = true -> znth (d_uels d) (en - 1) = Some e -> snd e < 0 -> im_set (d_usr d) n en = Done m ->
    0 <= n <= INT_MAX -> maps cc = true \/ n = im_high (d_usr d) + 1 -> datom d (set_d_status None (set_d_usr m (set_d_uels (zset (en - 1) (fst e, n) (d_uels d)) d)))
| D_restore : forall d n e, znth (d_uels d) (im_get (d_usr d) n - 1) = Some e ->
    datom d (set_d_uels (zset (im_get (d_usr d) n - 1) (fst e, n) (d_uels d)) d)
| D_forget : forall d, datom d (set_d_status None d)
| D_status : forall d, d_status d = None -> datom d (snd (map_status d))
| D_text : forall d l t, cc = gdxAddSetText t -> d_texts d = Some l -> datom d (set_d_texts (Some (fst (sl_add false l (make_good (cut255 t)) 0))) d)
| D_node : forall d l n t k, cc = gdxSetTextNodeNr n k -> d_texts d = Some l -> znth l n = Some (t, 0) -> datom d (set_d_texts (Some (zset n (t, k) l)) d)
| D_acval : forall d m, datom d (set_d_acros (check_entry m (d_acros d)) d)
| D_acadd : forall d name t ix, cc = gdxAcronymAdd name t ix -> acro_check name ix (d_acros d) 0 = AcFree ->
    datom d (set_d_acros (d_acros d ++ [mkAcro name (make_good t) ix ix false]) d)
| D_acauto : forall d org nxt, acro_entry org (d_acros d) < 0 -> 0 < nxt ->
    datom d (set_d_acros (d_acros d ++ [mkAcro [] [] org nxt true]) d)
| D_acmap : forall d n a nxt, znth (d_acros d) n = Some a -> ac_rmap a <= 0 -> 0 < nxt ->
    datom d (set_d_acros (zset n (set_ac_rmap nxt (set_ac_auto true a)) (d_acros d)) d)
| D_acname : forall d n a name t b k ix, cc = gdxAcronymSetInfo k name t ix -> n = k - 1 -> znth (d_acros d) n = Some a -> (1 <=? sym_find d name) = false ->
    (0 <=? acro_named name (d_acros d)) = false -> good_ident name = true -> (b = false \/ b = ac_auto a) ->
    datom d (set_d_acros (zset n (set_ac_name name (set_ac_text (make_good t) (set_ac_auto b a))) (d_acros d)) d)
| D_acrmap : forall d n a ix k name t, cc = gdxAcronymSetInfo k name t ix -> n = k - 1 -> znth (d_acros d) n = Some a -> existsb (fun b => ac_rmap b =? ix) (d_acros d) = false ->
    datom d (set_d_acros (zset n (set_ac_rmap ix a) (d_acros d)) d)
| D_fstart : forall d n, cc = gdxFilterRegisterStart n -> 1 <= n -> datom d (set_d_filts (drop_filter n (d_filts d) ++ [mkFilt n (im_high (d_usr d)) [] false]) d)
| D_fadd : forall d f n l, cc = gdxFilterRegister n -> In f (d_filts d) -> 1 <= n <= fl_max f -> 1 <= im_get (d_usr d) n -> bits_add n (fl_map f) = Done l ->
    datom d (set_d_filts (put_filter (set_fl_map l f) (d_filts d)) d)
| D_fdone : forall d f s, cc = gdxFilterRegisterDone -> In f (d_filts d) -> d_status d = Some s ->
    datom d (set_d_filts (put_filter (set_fl_sorted (match s with map_unsorted => filt_increasing f (List.map snd (d_uels d)) (-1) | _ => true end) f) (d_filts d)) d)
| D_dstr : forall d n ids id, cc = gdxSymbolSetDomainX n ids -> In id ids -> good_ident id = true -> sl_find true (d_dstrs d) id = None ->
    datom d (set_d_dstrs (d_dstrs d ++ [(id, tt)]) d).

(** The two calls that edit the acronyms.  Without them, the acronyms change only by the
    entry for a value that is written, and by numbers for values that are read. *)
Definition edits_acros (c : call) : bool :=
  match c with gdxAcronymAdd _ _ _ | gdxAcronymSetInfo _ _ _ _ => true | _ => false end.
Definition acalm (d d' : dic) : Prop :=
  d_acros d' = d_acros d \/ edits_acros cc = true \/ exists m, d_acros d' = check_entry m (d_acros d).
Inductive numbered (nxt : Z) (d : dic) : dic -> Prop :=
| N_auto : forall org, acro_entry org (d_acros d) < 0 -> 0 < nxt -> numbered nxt d (set_d_acros (d_acros d ++ [mkAcro [] [] org nxt true]) d)
| N_map : forall n a, znth (d_acros d) n = Some a -> ac_rmap a <= 0 -> 0 < nxt ->
    numbered nxt d (set_d_acros (zset n (set_ac_rmap nxt (set_ac_auto true a)) (d_acros d)) d).
Lemma numbered_datom : forall nxt d d', numbered nxt d d' -> datom d d'.
Proof. intros nxt d d' []; [apply D_acauto; assumption|apply D_acmap; assumption]. Qed.

Inductive dsteps (d : dic) : dic -> Prop :=
| ds_refl : dsteps d d
| ds_next : forall d1 d2, dsteps d d1 -> acalm d1 d2 -> datom d1 d2 -> dsteps d d2.

Lemma ds_trans : forall a b c, dsteps a b -> dsteps b c -> dsteps a c.
Proof. intros a b c H H2. induction H2; [assumption|]. eapply ds_next; eassumption. Qed.
Lemma ds_one : forall a b, acalm a b -> datom a b -> dsteps a b.
Proof. intros. eapply ds_next; [apply ds_refl|assumption|assumption]. Qed.
Lemma calm_upd : forall d n f, acalm d (upd_sym n f d).
Proof. intros d n f. left. unfold upd_sym. destruct (znth _ _); reflexivity. Qed.
Lemma calm_add : forall d s, acalm d (snd (uel_add s d)).
Proof. intros d s. left. unfold uel_add. destruct (sl_add true (d_uels d) s (-1)); reflexivity. Qed.
Lemma calm_status : forall d, acalm d (snd (map_status d)).
Proof. intros d. left. unfold map_status. destruct (d_status d); reflexivity. Qed.

Ltac acalm := solve [left; reflexivity | apply calm_upd | apply calm_add | apply calm_status | right; left; match goal with C : _ = _ |- edits_acros _ = true => rewrite C; reflexivity end].
Ltac ds1 := apply ds_one; [acalm|].

(** ** Changes of the object *)

(** A change of the options: the disk stays, and the table of special values stays, is
    reset, or gets five different new values; only the three calls for it change it. *)
Definition sets_values (c : call) : bool :=
  match c with gdxSetSpecialValues _ | gdxSetReadSpecialValues _ | gdxResetSpecialValues => true | _ => false end.
Definition env_keeps (a b : env) : Prop :=
  e_disk b = e_disk a /\
  (sets_values cc = true \/ (e_tab b = e_tab a /\ e_rtab b = e_rtab a)) /\
  (e_tab b = e_tab a \/ e_tab b = default_tab \/
   exists five, length five = 5%nat /\ has_dup five = false /\ e_tab b = five ++ skipn 5 (e_tab a)).

(** The next number for an acronym is set by one call only. *)
Definition nr_keeps (a b : env) : Prop :=
  (exists nv, cc = gdxAcronymNextNr nv /\ 0 <= nv /\ e_nextacr b = nv) \/ e_nextacr b = e_nextacr a.

(** Each of the three switches is changed by its own call only. *)
Definition opt_keeps (a b : env) : Prop :=
  ((exists v, cc = gdxStoreDomainSetsSet v /\ e_storedom b = negb (v =? 0)) \/ e_storedom b = e_storedom a) /\
  ((exists v, cc = gdxAllowBogusDomainsSet v /\ e_bogus b = negb (v =? 0)) \/ e_bogus b = e_bogus a) /\
  ((exists v, cc = gdxMapAcronymsToNaNSet v /\ e_acrnan b = negb (v =? 0)) \/ e_acrnan b = e_acrnan a).

Inductive atom : gst -> gst -> Prop :=
| A_mode : forall m st, puts cc = true \/ In m read_modes -> atom st (set_g_mode m st)
| A_aft : forall m st, puts cc = true -> atom st (set_g_aft m st)
| A_reg : forall m st, mode_in (g_mode st) [fr_init; fw_init] = true -> In m elem_modes -> atom st (set_g_mode m (set_g_aft (after_reg st) st))
| A_back : forall st, mode_in (g_mode st) elem_modes = true -> atom st (set_g_mode (g_aft st) st)
| A_env : forall f st, env_keeps (g_env st) (f (g_env st)) -> nr_keeps (g_env st) (f (g_env st)) -> opt_keeps (g_env st) (f (g_env st)) -> atom st (upd_env f st)
| A_acro : forall d st, numbered (e_nextacr (g_env st)) (g_dic st) d -> atom st (set_g_dic d (upd_env (set_e_nextacr (e_nextacr (g_env st) + 1)) st))
| A_strm : forall s o st, (exists s0, f_strm (g_fil st) = Some s0 /\ (puts cc = true \/ forall F, rd_ok F s0 -> rd_ok F s)) -> atom st (s_log s o st)
| A_nwp : forall p st, puts cc = true -> atom st (upd_fil (set_f_nwp p) st)
| A_dic : forall d st, acalm (g_dic st) d -> datom (g_dic st) d -> atom st (set_g_dic d st)
| A_error : forall n st, n <> 0 -> has_message n = true -> atom st (set_error n st)
| A_elist : forall l st, atom st (upd_err (set_r_list l) st)
| A_ecnt : forall st, atom st (upd_err (set_r_cnt 0) st)
| A_wrk : forall f st, atom st (upd_wrk f st)
| A_sli : forall f st, atom st (upd set_g_sli g_sli f st).

Definition ok {A} (P : gst -> Prop) (x : outcome (A * gst)) : Prop := match x with Done (_, s) => P s | UB => True end.
Definition okg (P : gst -> Prop) (x : outcome gst) : Prop := match x with Done s => P s | UB => True end.

Lemma ok_bind : forall {A B} P (x : outcome (A * gst)) (k : A * gst -> outcome (B * gst)),
  ok P x -> (forall a s, x = Done (a, s) -> P s -> ok P (k (a, s))) -> ok P (obind x k).
Proof. intros A B P [[a s]|] k H K; cbn in *; auto. Qed.
Lemma ok_bindg : forall {B} P (x : outcome gst) (k : gst -> outcome (B * gst)),
  okg P x -> (forall s, x = Done s -> P s -> ok P (k s)) -> ok P (obind x k).
Proof. intros B P [s|] k H K; cbn in *; auto. Qed.
Lemma ok_pure : forall {A B} P (x : outcome A) (k : A -> outcome (B * gst)),
  (forall a, x = Done a -> ok P (k a)) -> ok P (obind x k).
Proof. intros A B P [a|] k K; cbn in *; auto. Qed.
Lemma okg_bind : forall {A} P (x : outcome (A * gst)) (k : A * gst -> outcome gst),
  ok P x -> (forall a s, x = Done (a, s) -> P s -> okg P (k (a, s))) -> okg P (obind x k).
Proof. intros A P [[a s]|] k H K; cbn in *; auto. Qed.
Lemma okg_bindg : forall P (x : outcome gst) (k : gst -> outcome gst),
  okg P x -> (forall s, x = Done s -> P s -> okg P (k s)) -> okg P (obind x k).
Proof. intros P [s|] k H K; cbn in *; auto. Qed.
Lemma okg_pure : forall {A} P (x : outcome A) (k : A -> outcome gst),
  (forall a, x = Done a -> okg P (k a)) -> okg P (obind x k).
Proof. intros A P [a|] k K; cbn in *; auto. Qed.

(** ** The label table *)

Lemma user_map_inv : forall d i v, user_map d i = Done v -> exists e, znth (d_uels d) (i - 1) = Some e /\ snd e = v.
Proof. intros d i v H. unfold user_map in H. destruct (znth (d_uels d) (i - 1)) as [e|]; [|discriminate]. injection H as <-. eauto. Qed.

Lemma int_okb_spec : forall n, int_okb n = true <-> INT_MIN <= n <= INT_MAX.
Proof. intros n. unfold int_okb. rewrite andb_true_iff, !Z.leb_le. reflexivity. Qed.

Lemma im_set_nonneg : forall m f t m', im_set m f t = Done m' -> 0 <= f.
Proof. intros m f t m' H. unfold im_set in H. destruct (Z.ltb_spec f 0); [discriminate|assumption]. Qed.

Lemma new_usr_ds : forall en d v d', numbers cc = true -> new_usr_uel en d = Done (v, d') -> dsteps d d'.
Proof.
  intros en d v d' NB H. unfold new_usr_uel in H. destruct (user_map d en) as [u|] eqn:U; [|discriminate]. cbn [obind] in H.
  apply user_map_inv in U. destruct U as (e & E & <-).
  destruct (Z.ltb_spec (snd e) 0) as [L|L].
  - destruct (int_okb _) eqn:IO; [|discriminate]. unfold set_user_map in H. rewrite E in H. cbn [obind] in H.
    destruct (im_set _ _ _) as [m|] eqn:Hm; cbn [obind] in H; [|discriminate]. injection H as <- <-.
    ds1. exact (D_user _ _ _ _ _ NB E L Hm (conj (im_set_nonneg _ _ _ _ Hm) (proj2 (proj1 (int_okb_spec _) IO))) (or_intror eq_refl)).
  - injection H as <- <-. ds1; apply D_forget.
Qed.

Lemma uel_add_ds : forall s d, In s (List.map trim_right (labels_of cc)) -> good_uel s = true -> trim_right s = s -> dsteps d (snd (uel_add s d)).
Proof. intros. ds1; apply D_uel; assumption. Qed.

Lemma firstn_incl : forall {A} n (l : list A), incl (firstn n l) l.
Proof. intros A n l x X. rewrite <- (firstn_skipn n l). apply in_or_app. left. exact X. Qed.
Lemma trim_store_eq : forall s t, trim_store s = Done t -> t = trim_right s.
Proof. intros s t H. unfold trim_store in H. destruct (_ || _); [|discriminate]. injection H as <-. reflexivity. Qed.
Lemma trim_store_in : forall s t l, trim_store s = Done t -> In s l -> In t (List.map trim_right l).
Proof. intros s t l H I. unfold trim_store in H. destruct (_ || _); [|discriminate]. injection H as <-. apply in_map. exact I. Qed.
Lemma trim_store_trimmed : forall s t, trim_store s = Done t -> trim_right t = t.
Proof.
  intros s t H. unfold trim_store in H. destruct (_ || _); [|discriminate]. injection H as <-. apply trim_right_idem.
Qed.

Lemma add_usr_new_ds : forall s d v d', numbers cc = true -> In s (List.map trim_right (labels_of cc)) -> good_uel s = true -> trim_right s = s -> add_usr_new s d = Done (v, d') -> dsteps d d'.
Proof.
  intros s d v d' NB L G T H. unfold add_usr_new in H. pose proof (uel_add_ds s d L G T) as D. destruct (uel_add s d) as [en d1]. cbn [snd] in D.
  eapply ds_trans; [exact D|]. eapply new_usr_ds; [exact NB|exact H].
Qed.

Lemma add_usr_indx_ds : forall s n d v d', numbers cc = true -> In s (List.map trim_right (labels_of cc)) -> maps cc = true -> n <= INT_MAX -> good_uel s = true -> trim_right s = s -> add_usr_indx_new s n d = Done (v, d') -> dsteps d d'.
Proof.
  intros s n d v d' NB LB MT NI G T H. unfold add_usr_indx_new in H. pose proof (uel_add_ds s d LB G T) as D. destruct (uel_add s d) as [en d1]. cbn [snd] in D.
  destruct (user_map d1 en) as [u|] eqn:U; [|discriminate]. cbn [obind] in H. apply user_map_inv in U. destruct U as (e & E & <-).
  destruct (Z.ltb_spec (snd e) 0) as [L|L].
  - unfold set_user_map in H. rewrite E in H. cbn [obind] in H.
    destruct (im_set _ _ _) as [m|] eqn:Hm; cbn [obind] in H; [|discriminate]. injection H as <- <-.
    eapply ds_next; [exact D|acalm|]. exact (D_user _ _ _ _ _ NB E L Hm (conj (im_set_nonneg _ _ _ _ Hm) NI) (or_introl MT)).
  - destruct (snd e =? n); injection H as <- <-; (eapply ds_next; [exact D|acalm|apply D_forget]).
Qed.

Lemma restore_ds : forall k n d d', restore_maps k n d = Done d' -> dsteps d d'.
Proof.
  induction k as [|k IH]; intros n d d' H; cbn [restore_maps] in H.
  - injection H as <-. apply ds_refl.
  - unfold set_user_map in H at 1. destruct (znth (d_uels d) (im_get (d_usr d) n - 1)) as [e|] eqn:E; [|discriminate]. cbn [obind] in H.
    eapply ds_trans; [|eapply IH; exact H]. ds1; apply D_restore. exact E.
Qed.

Lemma map_status_ds : forall d, dsteps d (snd (map_status d)).
Proof.
  intros d. destruct (d_status d) as [s|] eqn:E.
  - unfold map_status. rewrite E. apply ds_refl.
  - ds1; apply D_status. exact E.
Qed.

Lemma will_be_sorted_ds : forall doms first acts d b d', will_be_sorted first doms acts d = Done (b, d') -> dsteps d d'.
Proof.
  induction doms as [| n doms IH]; intros first acts d b d' H; cbn [will_be_sorted] in H.
  - injection H as <- <-. apply ds_refl.
  - destruct acts as [| a acts]; [injection H as <- <-; apply ds_refl|].
    destruct (n =? -2); [eapply IH; exact H|].
    pose proof (map_status_ds d) as D. destruct (map_status d) as [s d1]. cbn [snd] in D.
    eapply ds_trans; [exact D|].
    repeat match type of H with
    | Done _ = Done _ => injection H as <- <-; apply ds_refl
    | UB = _ => discriminate H
    | will_be_sorted _ _ _ _ = _ => eapply IH; exact H
    | (if ?c then _ else _) = _ => destruct c
    | match ?a with _ => _ end = _ => destruct a
    end.
Qed.

Lemma assign_new_ds : numbers cc = true -> forall k i el exp added d r1 r2 r3 d', assign_new k i el exp added d = Done (r1, r2, r3, d') -> dsteps d d'.
Proof.
  intros NB. induction k as [|k IH]; intros i el exp added d r1 r2 r3 d' H; cbn [assign_new] in H.
  - injection H as <- <- <- <-. apply ds_refl.
  - destruct (nth_error el i) as [en|]; [|injection H as <- <- <- <-; apply ds_refl].
    destruct (en <? 0); [|eapply IH; exact H].
    destruct (new_usr_uel (- en) d) as [[v d1]|] eqn:N; [|discriminate]. cbn [obind] in H.
    destruct (im_set exp (- en) v) as [e1|]; [|discriminate]. cbn [obind] in H.
    eapply ds_trans; [eapply new_usr_ds; [exact NB|exact N]|eapply IH; exact H].
Qed.

Lemma number_new_ds : numbers cc = true -> forall k i buf added d r1 r2 d', number_new k i buf added d = Done (r1, r2, d') -> dsteps d d'.
Proof.
  intros NB. induction k as [|k IH]; intros i buf added d r1 r2 d' H; cbn [number_new] in H.
  - injection H as <- <- <-. apply ds_refl.
  - destruct (nth_error buf i) as [en|]; [|discriminate].
    destruct (en <? 0); [|eapply IH; exact H].
    destruct (new_usr_uel (- en) d) as [[v d1]|] eqn:N; [|discriminate]. cbn [obind] in H.
    eapply ds_trans; [eapply new_usr_ds; [exact NB|exact N]|eapply IH; exact H].
Qed.

Lemma number_all_ds : numbers cc = true -> forall l d vs d', number_all l d = Done (vs, d') -> dsteps d d'.
Proof.
  intros NB. induction l as [|n l IH]; intros d vs d' H; cbn [number_all] in H.
  - injection H as <- <-. apply ds_refl.
  - destruct (new_usr_uel n d) as [[v d1]|] eqn:N; [|discriminate]. cbn [obind] in H.
    destruct (number_all l d1) as [[vs1 d2]|] eqn:NA; [|discriminate]. cbn [obind] in H. injection H as <- <-.
    eapply ds_trans; [eapply new_usr_ds; [exact NB|exact N]|eapply IH; exact NA].
Qed.

Lemma set_acros_twice : forall a b d, set_d_acros a (set_d_acros b d) = set_d_acros a d.
Proof. reflexivity. Qed.
Lemma set_acros_same : forall d, set_d_acros (d_acros d) d = d.
Proof. intros []. reflexivity. Qed.

Lemma check_acros_ds : forall vs l acs d, check_acros vs l = Done acs -> dsteps d (set_d_acros l d) -> dsteps d (set_d_acros acs d).
Proof.
  induction vs as [|v vs IH]; intros l acs d H D; cbn [check_acros] in H.
  - injection H as <-. exact D.
  - destruct v as [m|x]; [eapply IH; eassumption|]. destruct (fleb SV_ACR x); [|eapply IH; eassumption].
    destruct (d_round (fdiv x SV_ACR)) as [m|]; [|discriminate]. eapply IH; [exact H|].
    eapply ds_next; [exact D|right; right; exists m; reflexivity|]. rewrite <- (set_acros_twice _ l d). apply (D_acval (set_d_acros l d) m).
Qed.

Lemma dom_strings_ds : forall n0 ids0, cc = gdxSymbolSetDomainX n0 ids0 -> forall ids, incl ids ids0 -> forall l ns l' d, dom_strings ids l = (ns, l') -> dsteps d (set_d_dstrs l d) -> dsteps d (set_d_dstrs l' d).
Proof.
  intros n0 ids0 CC. induction ids as [|id ids IH]; intros INC l ns l' d H D; cbn [dom_strings] in H.
  - injection H as <- <-. exact D.
  - assert (INC' : incl ids ids0) by (intros x X; apply INC; right; exact X). specialize (IH INC'). destruct (good_ident id) eqn:G.
    + destruct (sl_find true l id) as [n|] eqn:F.
      * destruct (dom_strings ids l) as [ns1 l1] eqn:R. injection H as <- <-. eapply IH; eassumption.
      * destruct (dom_strings ids (l ++ [(id, tt)])) as [ns1 l1] eqn:R. injection H as <- <-. eapply IH; [exact R|].
        eapply ds_next; [exact D|acalm|]. apply (D_dstr (set_d_dstrs l d) n0 ids0 id CC (INC id (or_introl eq_refl)) G F).
    + destruct (dom_strings ids l) as [ns1 l1] eqn:R. injection H as <- <-. eapply IH; eassumption.
Qed.

(** ** The calls *)

Section Z.
Context (z : zlib) (P : gst -> Prop) (CL : forall a b, P a -> atom a b -> P b).

Lemma P_dic : forall d st, P st -> dsteps (g_dic st) d -> P (set_g_dic d st).
Proof.
  intros d st H D. induction D as [| d1 d2 D IH A1 A2].
  - destruct st. exact H.
  - change (P (set_g_dic d2 (set_g_dic d1 st))). eapply CL; [exact IH|]. apply A_dic; [exact A1|exact A2].
Qed.
Lemma P_upd_dic : forall f st, P st -> dsteps (g_dic st) (f (g_dic st)) -> P (upd_dic f st).
Proof. intros f st H D. apply P_dic; assumption. Qed.
Lemma P_mode : forall m st, puts cc = true \/ In m read_modes -> P st -> P (set_g_mode m st). Proof. intros. eapply CL; [eassumption|constructor; assumption]. Qed.
Lemma P_aft : forall m st, puts cc = true -> P st -> P (set_g_aft m st). Proof. intros. eapply CL; [eassumption|constructor; assumption]. Qed.
Lemma P_reg : forall m st, mode_in (g_mode st) [fr_init; fw_init] = true -> In m elem_modes -> P st -> P (set_g_mode m (set_g_aft (after_reg st) st)).
Proof. intros. eapply CL; [eassumption|constructor; assumption]. Qed.
Lemma P_back : forall st, mode_in (g_mode st) elem_modes = true -> P st -> P (set_g_mode (g_aft st) st).
Proof. intros. eapply CL; [eassumption|constructor; assumption]. Qed.
Lemma P_wrk : forall f st, P st -> P (upd_wrk f st). Proof. intros. eapply CL; [eassumption|constructor]. Qed.
Lemma P_sli : forall f st, P st -> P (upd set_g_sli g_sli f st). Proof. intros. eapply CL; [eassumption|constructor]. Qed.
Lemma P_error : forall n st, n <> 0 -> has_message n = true -> P st -> P (set_error n st). Proof. intros. eapply CL; [eassumption|constructor; assumption]. Qed.
Lemma P_nwp : forall p st, puts cc = true -> P st -> P (upd_fil (set_f_nwp p) st). Proof. intros. eapply CL; [eassumption|constructor; assumption]. Qed.
Lemma P_elist : forall l st, P st -> P (upd_err (set_r_list l) st). Proof. intros. eapply CL; [eassumption|constructor]. Qed.
Lemma P_ecnt : forall st, P st -> P (upd_err (set_r_cnt 0) st). Proof. intros. eapply CL; [eassumption|constructor]. Qed.
Lemma P_env : forall f st, P st -> nr_keeps (g_env st) (f (g_env st)) -> opt_keeps (g_env st) (f (g_env st)) -> env_keeps (g_env st) (f (g_env st)) -> P (upd_env f st). Proof. intros. eapply CL; [eassumption|constructor; assumption]. Qed.
Lemma P_acro : forall d st, P st -> numbered (e_nextacr (g_env st)) (g_dic st) d -> P (set_g_dic d (upd_env (set_e_nextacr (e_nextacr (g_env st) + 1)) st)).
Proof. intros. eapply CL; [eassumption|apply A_acro; assumption]. Qed.
Lemma P_add_error : forall k v st, P st -> P (add_error k v st).
Proof.
  intros k v st H. unfold add_error, upd_err, upd. destruct (r_list (g_err st)) as [l|] eqn:E.
  - destruct (11 <=? zlen l); [destruct st; exact H|apply P_elist; exact H].
  - apply (P_elist (Some [(k, v)]) st). exact H.
Qed.
Lemma P_add_dom_error : forall k v st, P st -> P (add_dom_error k v st).
Proof.
  intros k v st H. unfold add_dom_error, upd_err, upd. destruct (r_list (g_err st)) as [l|] eqn:E.
  - destruct (11 <=? zlen l); [destruct st; exact H|]. destruct (some_unseen k 0 l); [|destruct st; exact H].
    apply (P_elist (Some (l ++ [(k, v)])) st). exact H.
  - apply (P_elist (Some (if some_unseen k 0 [] then [(k, v)] else [])) st). exact H.
Qed.
Lemma P_sym : forall n f st, P st -> (forall s, sym_keeps s (f s)) -> (puts cc = true \/ forall s, sy_pos (f s) = sy_pos s /\ sy_count (f s) = sy_count s) ->
  (fills cc = true \/ forall s, sy_settext (f s) = sy_settext s) ->
  P (upd_dic (upd_sym n f) st).
Proof. intros n f st H K B C. apply P_upd_dic; [exact H|]. ds1; apply D_sym; [|exact B|exact C]. intros s _. apply K. Qed.

Lemma keeps_refl : forall s, sym_keeps s s.
Proof. intros s. repeat split; intros H; exact H. Qed.
Ltac keeps := intros; repeat split; try (intros keeps_H; exact keeps_H).

Lemma ok_new_symbol : forall name st ok st', good_new_symbol name st = (ok, st') -> P st -> P st'.
Proof.
  intros name st ok st' H Q. unfold good_new_symbol in H.
  repeat match type of H with (if ?c then _ else _) = _ => destruct c end; injection H as <- <-; try assumption; apply P_error; try discriminate; try reflexivity; assumption.
Qed.
Lemma new_symbol_true : forall name st st', good_new_symbol name st = (true, st') ->
  st' = st /\ (1 <=? sym_find (g_dic st) name) = false /\ (0 <=? acro_named name (d_acros (g_dic st))) = false /\ good_ident name = true.
Proof.
  intros name st st' H. unfold good_new_symbol in H. destruct (1 <=? _); [discriminate|]. destruct (0 <=? _); [discriminate|].
  destruct (good_ident name); [|discriminate]. injection H as <-. auto.
Qed.

(** The stream. *)
Lemma ok_strm : forall s o st s0, f_strm (g_fil st) = Some s0 -> puts cc = true \/ (forall F, rd_ok F s0 -> rd_ok F s) -> P st -> P (s_log s o st).
Proof. intros s o st s0 E W Q. eapply CL; [exact Q|]. apply A_strm. eauto. Qed.
Lemma s_setpos_ok : forall p st, P st -> okg P (s_setpos z p st).
Proof.
  intros p st Q. unfold s_setpos. destruct (f_strm (g_fil st)) as [s|] eqn:E; [|exact I].
  destruct (p <? 0); [exact I|]. cbn. eapply ok_strm; [eassumption| |exact Q]. right. intros F R.
  unfold as_setpos. rewrite (rd_flush z F s R). destruct R as [R1 R2]. split; [exact R1|exact I].
Qed.
Lemma s_setcomp_ok : forall c st, P st -> okg P (s_setcomp z c st).
Proof.
  intros c st Q. unfold s_setcomp. destruct (f_strm (g_fil st)) as [s|] eqn:E; [|exact I]. cbn. eapply ok_strm; [eassumption| |exact Q].
  right. intros F R. unfold as_setcomp. rewrite (rd_flush z F s R). destruct R as [R1 R2].
  destruct (as_comp s || c); destruct (Bool.eqb (as_comp s) c); split; cbn; auto; destruct (as_mode s) as [[|]| | |]; exact I.
Qed.
Lemma s_getpos_ok : forall st, puts cc = true -> P st -> ok P (s_getpos z st).
Proof.
  intros st W Q. unfold s_getpos. destruct (f_strm (g_fil st)) as [s|] eqn:E; [|exact I].
  destruct (as_getpos z s) as [[p s']|]; [|exact I]. cbn. eapply ok_strm; [eassumption|left; exact W|exact Q].
Qed.
Lemma s_write_ok : forall b st, puts cc = true -> P st -> okg P (s_write b st).
Proof.
  intros b st W Q. unfold s_write. destruct (f_strm (g_fil st)) as [s|] eqn:E; [|exact I].
  destruct (as_write b s) as [s'|]; [|exact I]. cbn. eapply ok_strm; [eassumption|left; exact W|exact Q].
Qed.
Lemma s_parse_ok' : forall {A} (p : parser A) st, P st -> ok P (s_parse z p st).
Proof.
  intros A p st Q. unfold s_parse. destruct (f_strm (g_fil st)) as [s|] eqn:E; [|exact I]. cbv zeta.
  destruct (as_view z (as_flush z s)) as [v|]; [|exact I]. destruct (p v) as [[a v']|]; [|exact I]. cbn. eapply ok_strm; [eassumption| |exact Q].
  right. intros F R. rewrite (rd_flush z F s R). destruct R as [R1 R2]. split; [exact R1|exact I].
Qed.
Lemma s_parse_o_ok' : forall {A} (p : list Z -> outcome (A * list Z)) st, P st -> ok P (s_parse_o z p st).
Proof. intros A p st Q. apply s_parse_ok'. exact Q. Qed.

Ltac putting := match goal with E : cc = _ |- puts cc = true => rewrite E; reflexivity | W : puts cc = true |- puts cc = true => exact W end.
Ltac filling := match goal with E : cc = _ |- fills cc = true => rewrite E; reflexivity | W : fills cc = true |- fills cc = true => exact W end.
Ltac moding := first [left; putting | right; cbn; tauto | right; assumption].
Ltac pst :=
  repeat match goal with
  | H : P ?s |- P ?s => exact H
  | |- P (set_g_mode _ _) => apply P_mode; [solve [moding]|]
  | |- P (set_g_aft _ _) => apply P_aft; [solve [putting]|]
  | |- P (upd_wrk _ _) => apply P_wrk
  | |- P (upd set_g_sli g_sli _ _) => apply P_sli
  | |- P (set_error _ _) => apply P_error; [solve [discriminate]|solve [reflexivity]|]
  | |- P (upd_fil (set_f_nwp _) _) => apply P_nwp; [solve [putting]|]
  | |- P (upd_err (set_r_list _) _) => apply P_elist
  | |- P (upd_err (set_r_cnt 0) _) => apply P_ecnt
  | |- P (add_error _ _ _) => apply P_add_error
  | |- P (add_dom_error _ _ _) => apply P_add_dom_error
  | |- P (upd_dic (upd_sym _ _) _) => apply P_sym; [|solve [keeps]|solve [left; putting | right; intros; split; reflexivity]|solve [right; intros; reflexivity]]
  | |- P (if ?c then _ else _) => destruct c
  end.
Ltac bycc := match goal with E : cc = _ |- _ => rewrite E end; cbn; auto.
Ltac go1 :=
  match goal with
  | |- ok P (match ?x with _ => _ end) => destruct x eqn:?
  | |- okg P (match ?x with _ => _ end) => destruct x eqn:?
  | |- ok P UB => exact I
  | |- okg P UB => exact I
  | |- ok P (Done (_, _)) => cbn [ok]; pst
  | |- okg P (Done _) => cbn [okg]; pst
  | |- ok P (refuse _) => unfold refuse
  | |- ok P (fail_with _ _) => unfold fail_with
  | |- ok P (okay _) => unfold okay
  | |- ok P (checked _ _ _) => unfold checked
  | |- okg P (s_setpos z _ _) => apply s_setpos_ok; pst
  | |- okg P (s_setcomp z _ _) => apply s_setcomp_ok; pst
  | |- okg P (s_write _ _) => apply s_write_ok; [putting|pst]
  | |- ok P (s_getpos z _) => apply s_getpos_ok; [putting|pst]
  | |- ok P (s_parse z _ _) => apply s_parse_ok'; pst
  | |- ok P (s_parse_o z _ _) => apply s_parse_o_ok'; pst
  | |- ok P (@obind (_ * gst) _ _ _) => apply ok_bind; [|intros ? ? ? ?]
  | |- ok P (@obind gst _ _ _) => apply ok_bindg; [|intros ? ? ?]
  | |- ok P (@obind _ _ _ _) => apply ok_pure; intros ? ?
  | |- okg P (@obind (_ * gst) _ _ _) => apply okg_bind; [|intros ? ? ? ?]
  | |- okg P (@obind gst _ _ _) => apply okg_bindg; [|intros ? ? ?]
  | |- okg P (@obind _ _ _ _) => apply okg_pure; intros ? ?
  end; cbv beta iota zeta.

Lemma cur_sym_inv : forall st n s, cur_sym st = Done (n, s) -> get_sym (g_dic st) n = Some s.
Proof.
  intros st n s H. unfold cur_sym in H. destruct (w_cur (g_wrk st)) as [|k|]; try discriminate.
  destruct (get_sym (g_dic st) k) eqn:E; [|discriminate]. injection H as <- <-. exact E.
Qed.

Lemma prepare_write_ok : forall name text dim typ uinfo st, In name (names_of cc) -> P st -> ok P (prepare_symbol_write z name text dim typ uinfo st).
Proof.
  intros name text dim typ uinfo st NM Q. unfold prepare_symbol_write. cbv zeta.
  set (st1 := upd_wrk _ _). assert (Q1 : P st1) by (unfold st1; pst). clearbody st1.
  destruct (negb (mode_in (g_mode st1) [fw_init])); [cbn [ok]; pst|].
  destruct (good_new_symbol name st1) as [b st2] eqn:G. pose proof (ok_new_symbol _ _ _ _ G Q1) as Q2.
  destruct b; cbn [negb]; cbv iota; [|exact Q2]. apply new_symbol_true in G. destruct G as (-> & N1 & N2 & N3).
  destruct (negb ((0 <=? dim) && (dim <=? 20))) eqn:B1; [cbn [ok]; pst|].
  destruct (negb ((0 <=? typ) && (typ <=? dt_equ))) eqn:B2; [cbn [ok]; pst|].
  match goal with |- ok P (obind (s_setcomp z _ (upd_wrk ?f ?s2)) _) =>
    assert (Q3 : P s2) by (apply P_upd_dic; [exact Q1|]; ds1; apply D_newsym; auto; split; [reflexivity|]; split; [reflexivity|]; split; [reflexivity|];
      split; [cbn [sy_bits sy_type sy_dim]; destruct (Z.eqb_spec typ dt_set) as [TY|TY]; [|intros TN; exfalso; apply TN; reflexivity]; destruct (Z.eqb_spec dim 1) as [DI|DI]; [|intros TN; exfalso; apply TN; reflexivity];
        intros _; subst; split; reflexivity|]; left;
      split; [unfold dt_set in *; cbn [sy_type]; lia|]; split; [cbn [sy_dim]; lia|]; eexists; reflexivity);
    generalize dependent f; generalize dependent s2 end.
  intros. repeat go1.
Qed.

Lemma init_do_write_ok : forall n st, puts cc = true -> P st -> okg P (init_do_write z n st).
Proof. intros n st W Q. unfold init_do_write. cbv zeta. repeat go1. Qed.

Lemma do_write_ok : forall keys vals st, fills cc = true -> P st -> ok P (do_write z keys vals st).
Proof.
  intros keys vals st FI Q. pose proof (fills_puts _ FI) as W. unfold do_write. cbv zeta. repeat go1.
  all: match goal with H : check_acros ?vs (d_acros (g_dic ?s)) = Done ?a, H1 : P ?s |- _ =>
         assert (QA : P (upd_dic (set_d_acros a) s))
           by (apply P_upd_dic; [exact H1|]; eapply check_acros_ds; [exact H|]; rewrite set_acros_same; apply ds_refl) end.
  all: try exact QA.
  all: match goal with H : cur_sym ?X = Done (?n, ?s) |- P (upd_dic _ ?X) =>
         assert (QX : P X) by (pst; exact QA); generalize dependent X end.
  all: intros X CX QX; apply cur_sym_inv in CX; apply P_upd_dic; [exact QX|]; ds1; apply D_sym; [|left; exact W|left; exact FI].
  all: intros sx SX; rewrite CX in SX; injection SX as <-; destruct (f_iszero _); keeps.
  all: cbn [sy_bits set_sy_bits set_sy_settext] in *; intros; congruence.
Qed.

Lemma write_all_ok : forall rs st, fills cc = true -> P st -> okg P (write_all z rs st).
Proof.
  induction rs as [|[k v] rs IH]; intros st FI Q; pose proof (fills_puts _ FI) as W; cbn [write_all]; repeat go1.
  - apply do_write_ok; assumption.
  - apply IH; assumption.
Qed.
Lemma write_done_ok : forall st, fills cc = true -> P st -> okg P (write_done z st).
Proof.
  intros st FI Q. pose proof (fills_puts _ FI) as W. unfold write_done. cbv zeta. repeat go1.
  - apply init_do_write_ok; assumption.
  - apply write_all_ok; assumption.
Qed.

(** Reading. *)
Lemma acro_remap_ok : forall v st, P st -> ok P (acro_remap v st).
Proof.
  intros v st Q. unfold acro_remap. cbv zeta.
  destruct (dblInfo v); try exact Q.
  destruct (e_acrnan (g_env st)); [exact Q|]. destruct (d_round _) as [org|]; [|exact I].
  destruct (Z.ltb_spec (acro_entry org (d_acros (g_dic st))) 0) as [L|L].
  - destruct (Z.leb_spec (e_nextacr (g_env st)) 0) as [NX|NX]; [exact Q|].
    cbn [ok]. exact (P_acro _ st Q (N_auto _ (g_dic st) org L NX)).
  - destruct (znth (d_acros (g_dic st)) _) as [a|] eqn:E; [|exact I].
    destruct (Z.leb_spec (ac_rmap a) 0) as [R|R]; [|exact Q].
    destruct (Z.leb_spec (e_nextacr (g_env st)) 0) as [NX|NX]; [exact Q|].
    cbn [ok]. exact (P_acro _ st Q (N_map _ (g_dic st) _ a E R NX)).
Qed.
Lemma read_value_ok : forall v st, P st -> ok P (read_value v st).
Proof. intros [m|d] st Q; cbn [read_value]; repeat go1. apply acro_remap_ok. exact Q. Qed.
Lemma read_values_ok : forall vs st, P st -> ok P (read_values vs st).
Proof.
  induction vs as [|v vs IH]; intros st Q; cbn [read_values]; repeat go1.
  - apply read_value_ok. exact Q.
  - apply IH. assumption.
Qed.
Lemma do_read_ok : forall st, P st -> ok P (do_read z st).
Proof.
  intros st Q. unfold do_read. cbv zeta. repeat go1. apply read_values_ok. pst.
Qed.
Lemma read_done_ok : forall st, P st -> ok P (data_read_done st).
Proof.
  intros st Q. unfold data_read_done. cbv zeta. repeat go1.
  apply P_dic; [pst|]. match goal with H : (if ?c then _ else _) = Done _ |- _ => destruct c end.
  - match goal with H : Done _ = Done _ |- _ => injection H as <- end. apply ds_refl.
  - eapply restore_ds. eassumption.
Qed.
Lemma read_all_ok : numbers cc = true -> forall fuel fi el exp an o items st, P st -> ok P (read_all_mapped z fuel fi el exp an o items st).
Proof.
  intros NB. induction fuel as [|k IH]; intros fi el exp an o items st Q; cbn [read_all_mapped]; repeat go1.
  - apply do_read_ok. exact Q.
  - apply IH. pst. apply P_dic; [assumption|].
    match goal with H : (if ?c then _ else _) = Done _ |- _ => destruct c end.
    + eapply assign_new_ds; eassumption.
    + match goal with H : Done _ = Done _ |- _ => injection H as <- <- <- <- end. apply ds_refl.
  - apply IH. pst.
Qed.
Lemma prepare_read_ok : forall n doms m st, numbers cc = true -> In m read_modes -> P st -> ok P (prepare_symbol_read z n doms m st).
Proof.
  intros n doms m st NB RM Q. unfold prepare_symbol_read. cbv zeta. repeat go1.
  all: try solve [apply read_done_ok; exact Q].
  all: try match goal with H : will_be_sorted _ _ _ (g_dic ?s) = Done (_, ?d) |- context [set_g_dic ?d ?s] =>
    assert (P (set_g_dic d s)) by (apply P_dic; [pst|]; eapply will_be_sorted_ds; exact H) end.
  all: try solve [apply read_all_ok; assumption].
  all: try solve [pst].
Qed.

Ltac go :=
  repeat first
    [ go1
    | match goal with
      | |- ok P (prepare_symbol_write z _ _ _ _ _ _) => apply prepare_write_ok; [solve [bycc]|pst]
      | |- okg P (init_do_write z _ _) => apply init_do_write_ok; [putting|pst]
      | |- ok P (do_write z _ _ _) => apply do_write_ok; [filling|pst]
      | |- okg P (write_done z _) => apply write_done_ok; [filling|pst]
      | |- ok P (prepare_symbol_read z _ _ _ _) => apply prepare_read_ok; [solve [bycc]|solve [cbn; tauto]|pst]
      | |- ok P (do_read z _) => apply do_read_ok; pst
      | |- ok P (data_read_done _) => apply read_done_ok; pst
      end ].

Lemma cur_filter_in : forall st f, cur_filter st = Done f -> In f (d_filts (g_dic st)).
Proof.
  intros st f H. unfold cur_filter in H. destruct (w_curf (g_wrk st)) as [n|]; [|discriminate].
  destruct (find_filter (d_filts (g_dic st)) n) as [g|] eqn:E; [|discriminate]. injection H as <-.
  induction (d_filts (g_dic st)) as [|h l IH]; [discriminate|]. cbn [find_filter] in E. destruct (fl_nr h =? n).
  - injection E as <-. left. reflexivity.
  - right. apply IH. exact E.
Qed.
Lemma map_status_some : forall d, d_status (snd (map_status d)) = Some (fst (map_status d)) /\ d_filts (snd (map_status d)) = d_filts d.
Proof. intros d. unfold map_status. destruct (d_status d) eqn:E; [split; [exact E|reflexivity]|split; reflexivity]. Qed.

Ltac newsym :=
  match goal with H : good_new_symbol _ _ = (?b, _), B : negb ?b = false |- _ =>
    destruct b; [|discriminate B]; apply new_symbol_true in H; destruct H as (-> & N1 & N2 & N3) end.
Lemma enter_ok : forall a b st, puts cc = true -> P st -> P (enter a b st).
Proof. intros a b st W Q. unfold enter. pst. Qed.
Lemma add_item_ok : forall k v st, P st -> okg P (add_item k v st).
Proof. intros k v st Q. unfold add_item. go. Qed.

Lemma str_key_ds : forall s cache last mm d c n m d', In s (labels_of cc) -> str_key s cache last mm d = Done (Some (c, n, m, d')) -> dsteps d d'.
Proof.
  intros s cache last mm d c n m d' LB H. unfold str_key in H. destruct (trim_store s) as [t|] eqn:TS; [|discriminate]. cbn [obind] in H. pose proof (trim_store_in _ _ _ TS LB) as LT. apply trim_store_trimmed in TS.
  destruct (negb (hd 0 cache =? 127) && str_eqb t cache); [injection H as <- <- <- <-; apply ds_refl|]. cbv zeta in H.
  destruct (uel_find d t =? -1); [|injection H as <- <- <- <-; apply ds_refl].
  destruct (good_uel t) eqn:G; [|discriminate]. pose proof (uel_add_ds t d LT G TS) as D.
  destruct (uel_add t d) as [k d1]. injection H as <- <- <- <-. exact D.
Qed.
Lemma str_keys_ok : forall keys i st, incl keys (labels_of cc) -> P st -> ok P (str_keys keys i st).
Proof.
  induction keys as [|s keys IH]; intros i st INC Q; cbn [str_keys]; cbv zeta; go.
  apply IH; [intros x X; apply INC; right; exact X|]. apply P_dic; [pst|]. eapply str_key_ds; [apply INC; left; reflexivity|]. match goal with H : str_key _ _ _ _ _ = _ |- _ => exact H end.
Qed.
Lemma set_domains_ok : forall ids0, cc = gdxSymbolSetDomain ids0 -> forall cur ids i res st, P st -> ok P (set_domains cur ids i res st).
Proof.
  intros ids0 CC cur. assert (PUT : forall n g st, P st -> P (upd_dic (upd_sym n (fun s => set_sy_doms (g s) s)) st)).
  { intros n g st Q. apply P_upd_dic; [exact Q|]. ds1. eapply D_doms. exact CC. }
  induction ids as [|id ids IH]; intros i res st Q; cbn [set_domains]; cbv zeta; go.
  all: apply IH; try (match goal with |- P (if ?b then _ else _) => destruct b end); pst; apply PUT; pst.
Qed.
Lemma map_loop_ok : forall fuel fi buf an st, P st -> ok P (map_loop z fuel fi buf an st).
Proof. induction fuel as [|k IH]; intros fi buf an st Q; cbn [map_loop]; cbv zeta; go. all: apply IH; pst. Qed.
Lemma read_loop_ok : forall fuel want limit acc st, P st -> ok P (read_loop z fuel want limit acc st).
Proof. induction fuel as [|k IH]; intros want limit acc st Q; cbn [read_loop]; cbv zeta; go. all: apply IH; pst. Qed.
Lemma slice_loop_ok : forall fuel ms st, P st -> ok P (slice_loop z fuel ms st).
Proof. induction fuel as [|k IH]; intros ms st Q; cbn [slice_loop]; cbv zeta; go. all: apply IH; pst. Qed.
Lemma dom_loop_ok : forall fuel pos f m st, P st -> ok P (dom_loop z fuel pos f m st).
Proof. induction fuel as [|k IH]; intros pos f m st Q; cbn [dom_loop]; cbv zeta; go. all: apply IH; pst. Qed.
Lemma len_loop_ok : forall fuel lens st, P st -> ok P (len_loop z fuel lens st).
Proof. induction fuel as [|k IH]; intros lens st Q; cbn [len_loop]; cbv zeta; go. all: apply IH; pst. Qed.
Lemma note_keys_ok : forall keys st, P st -> P (snd (note_keys keys st)).
Proof. intros. unfold note_keys. cbn [snd]. pst. Qed.

(** The calls of this file: all but opening, closing, freeing and fetching the last
    error. *)
Definition plain (c : call) : bool :=
  match c with
  | gdxOpenWriteEx _ _ _ | gdxOpenReadEx _ _ | gdxOpenAppend _ | gdxClose | gdxFree | gdxGetLastError _ => false
  | _ => true
  end.


Theorem exec_ok : forall st, plain cc = true -> call_ok cc -> P st -> ok P (exec z cc st).
Proof.
  intros st. enough (X : forall c, cc = c -> plain c = true -> call_ok c -> P st -> ok P (exec z c st)) by (apply X; reflexivity).
  intros c CC C OK Q. destruct c; try discriminate C; clear C; cbn [exec call_ok] in *.
  - unfold write_raw_start. go.
  - unfold write_raw_start_bounds. go.
  - unfold write_raw. cbv zeta. assert (PU : puts cc = true) by putting. pose proof (enter_ok fw_dom_raw fw_raw_data st PU Q). go.
  - unfold write_map_start. go.
  - unfold write_map. cbv zeta. assert (PU : puts cc = true) by putting. pose proof (enter_ok fw_dom_map fw_map_data st PU Q). go. apply add_item_ok. pst.
  - unfold write_str_start. go.
  - unfold write_str. cbv zeta. assert (PU : puts cc = true) by putting. pose proof (enter_ok fw_dom_str fw_str_data st PU Q). go.
    + apply str_keys_ok; [rewrite CC; intros x X; eapply firstn_incl; exact X|assumption].
    + apply add_item_ok. assumption.
  - unfold data_write_done. go.
  - unfold symbol_set_domain. cbv zeta. go. eapply set_domains_ok; [exact CC|].
    apply P_upd_dic; [exact Q|]. ds1. apply (D_doms _ _ (fun _ => Some (repeat 0 (sy_dim s))) ids). exact CC.
  - unfold symbol_set_domain_x. cbv zeta. go.
    match goal with H : dom_strings _ _ = (_, ?l') |- _ => pose proof (dom_strings_ds _ _ CC _ (firstn_incl _ _) _ _ _ (g_dic st) H) as DS end.
    apply P_upd_dic; [exact Q|].
    eapply ds_next; [apply DS; destruct (g_dic st); apply ds_refl|acalm|]. eapply D_dstrs. exact CC.
  - unfold add_alias. cbv zeta. go.
    + eapply ok_new_symbol; eassumption.
    + newsym.
      apply P_upd_dic; [exact Q|]. ds1; apply D_newsym; try assumption; [rewrite CC; match goal with H : (if 0 <? ?b then _ else _) = (_, _) |- _ => destruct (0 <? b); injection H as _ <- end; cbn; auto|].
      split; [reflexivity|]. split; [reflexivity|]. split; [reflexivity|]. split; [intros TN; exfalso; apply TN; reflexivity|]. right.
      destruct (if z0 =? INT_MAX then 0 else z0) as [|k|k] eqn:Z0; cbn [Z.eqb] in *.
      1: { injection Heqo as <-. left. cbn. repeat split; try reflexivity; match goal with H : Done _ = Done _ |- _ => injection H as <- end; reflexivity. }
      all: right; split; [reflexivity|]; cbn [sy_uinfo]; destruct (get_sym (g_dic st) _) as [t|] eqn:GS; [|discriminate]; injection Heqo as <-.
      all: exists t; destruct (sym_name (g_dic st) _) as [nm|] eqn:SN; [|discriminate]; exists nm; repeat split; auto.
      all: apply negb_false_iff, orb_true_iff in Heqb1; rewrite !Z.eqb_eq in Heqb1; exact Heqb1.
  - unfold symbol_add_comment. go. apply P_upd_dic; [exact Q|]. ds1.
    apply (D_comment _ synr _ txt); [exact CC|].
    intros Y. match goal with H : (if synr <=? 0 then _ else _) = _ |- _ => destruct (Z.leb_spec synr 0) as [L|L] in H; [lia|];
      destruct (synr <=? _) in H; [injection H as <-; reflexivity|discriminate H] end.
  - unfold add_set_text. go. apply P_upd_dic; [exact Q|].
    match goal with H : sl_add false ?l0 ?t 0 = (?a, _) |- _ => replace a with (fst (sl_add false l0 t 0)) by (rewrite H; reflexivity) end.
    ds1; apply D_text; assumption.
  - unfold set_text_node_nr. go. apply P_upd_dic; [exact Q|]. ds1. eapply D_node; eassumption.
  - unfold register_raw_start. go.
  - unfold register_raw. go. apply P_upd_dic; [exact Q|]. apply uel_add_ds; [eapply trim_store_in; [eassumption|bycc]|assumption|eapply trim_store_trimmed; eassumption].
  - unfold register_str_start, checked. destruct (mode_in (g_mode st) [fr_init; fw_init]) eqn:MD; [|go]. unfold okay. cbn [ok]. apply P_reg; [exact MD|cbn; auto|exact Q].
  - unfold register_str. go. apply P_dic; [exact Q|]. eapply add_usr_new_ds; [bycc|eapply trim_store_in; [eassumption|bycc]|eassumption|eapply trim_store_trimmed; eassumption|eassumption].
  - unfold register_map_start, checked. destruct (mode_in (g_mode st) [fr_init; fw_init]) eqn:MD; [|go]. unfold okay. cbn [ok]. apply P_reg; [exact MD|cbn; auto|exact Q].
  - unfold register_map. cbv zeta. go.
    all: apply P_dic; [exact Q|]; eapply add_usr_indx_ds; [bycc|eapply trim_store_in; [eassumption|bycc]|bycc|apply OK|eassumption|eapply trim_store_trimmed; eassumption|eassumption].
  - unfold register_done, checked. destruct (mode_in (g_mode st) [f_raw_elem; f_map_elem; f_str_elem]) eqn:MD; [|go]. unfold okay. cbn [ok]. apply P_back; [exact MD|exact Q].
  - unfold rename_uel. cbv zeta. go. apply P_upd_dic; [exact Q|]. ds1. eapply D_rename; [exact CC|eapply trim_store_eq; eassumption| | |eapply trim_store_trimmed; eassumption|lia|assumption].
    1: { match goal with H : trim_store old = Done _ |- _ => rewrite (trim_store_eq _ _ H) end. reflexivity. }
    match goal with H : negb (good_uel _) = false |- _ => apply negb_false_iff in H; exact H end.
  - unfold acronym_add. cbv zeta. go. apply P_upd_dic; [exact Q|]. ds1; apply D_acadd; assumption.
  - unfold acronym_set_info. cbv zeta. go.
    + pst. eapply ok_new_symbol; eassumption.
    + newsym.
      apply P_upd_dic; [exact Q|]. ds1. eapply D_acname; eauto.
    + newsym.
      apply P_upd_dic; [exact Q|]. ds1.
      match goal with H : znth _ _ = Some ?a |- _ => replace a with (set_ac_auto (ac_auto a) a) at 1 by (destruct a; reflexivity) end.
      eapply D_acname; eauto.
    + newsym. pst.
    + apply P_upd_dic; [exact Q|]. ds1. eapply D_acrmap; eauto.
  - unfold acronym_next_nr. destruct (Z.leb_spec 0 nv); cbn [ok]; [|exact Q]. apply P_env; [exact Q|left; exists nv; split; [exact CC|split; [assumption|reflexivity]]|split; [|split]; right; reflexivity|]. split; [reflexivity|]. split; [right; split; reflexivity|left; reflexivity].
  - unfold set_special. cbv zeta. go. apply P_env; [exact Q|right; reflexivity|split; [|split]; right; reflexivity|]. split; [reflexivity|]. split; [left; rewrite CC; reflexivity|]. right; right. exists (firstn 5 vals).
    split; [|split; [assumption|reflexivity]]. rewrite firstn_length. lia.
  - unfold set_read_special. go. apply P_env; [exact Q|right; reflexivity|split; [|split]; right; reflexivity|]. split; [reflexivity|]. split; [left; rewrite CC; reflexivity|left; reflexivity].
  - go. apply P_env; [exact Q|right; reflexivity|split; [|split]; right; reflexivity|]. split; [reflexivity|]. split; [left; rewrite CC; reflexivity|right; left; reflexivity].
  - go. apply P_env; [exact Q|right; reflexivity|split; [left; eexists; split; [exact CC|reflexivity]|split; right; reflexivity]|]. split; [reflexivity|]. split; [right; split; reflexivity|left; reflexivity].
  - go. apply P_env; [exact Q|right; reflexivity|split; [right; reflexivity|split; [left; eexists; split; [exact CC|reflexivity]|right; reflexivity]]|]. split; [reflexivity|]. split; [right; split; reflexivity|left; reflexivity].
  - go. apply P_env; [exact Q|right; reflexivity|split; [right; reflexivity|split; [right; reflexivity|left; eexists; split; [exact CC|reflexivity]]]|]. split; [reflexivity|]. split; [right; split; reflexivity|left; reflexivity].
  - unfold read_raw_start, read_start. go.
  - unfold read_raw. go.
  - unfold read_str_start, read_start. go.
  - unfold read_str. go.
  - unfold read_map_start, read_start. go.
  - unfold read_filtered_start, read_start. go.
  - unfold read_map, note_keys. cbv zeta. go.
    all: try solve [apply map_loop_ok; assumption].
    all: apply P_dic; [assumption|];
      match goal with H : (if ?c then _ else _) = Done _ |- _ => destruct c end;
      [eapply number_new_ds; [bycc|eassumption]|match goal with H : Done _ = Done _ |- _ => injection H as <- <- <- end; apply ds_refl].
  - unfold read_done. go.
  - unfold read_raw_fast. go. apply read_loop_ok. assumption.
  - unfold read_raw_fast_ex. go. apply read_loop_ok. assumption.
  - unfold read_raw_fast_filt. cbv zeta. go. apply read_loop_ok. assumption.
  - unfold slice_start. cbv zeta. go. apply slice_loop_ok. assumption.
  - unfold read_slice. cbv zeta. go. apply read_loop_ok. assumption.
  - unfold data_slice_uels. go.
  - unfold get_domain_elements. cbv zeta. go.
    all: try solve [apply dom_loop_ok; assumption].
    apply P_dic; [assumption|]. eapply number_all_ds; [bycc|eassumption].
  - unfold symb_indx_max_length. cbv zeta. go. all: try solve [apply len_loop_ok; assumption].
  - unfold symb_max_length. go.
  - unfold uel_max_length. go.
  - unfold find_symbol. cbv zeta. go.
  - unfold symbol_info. go.
  - unfold symbol_dim. go.
  - unfold symbol_info_x. go.
  - unfold symbol_get_domain. go.
  - unfold symbol_get_domain_x. cbv zeta. go.
  - unfold set_has_text. go.
  - unfold symbol_get_comment. go.
  - unfold get_elem_text. go.
  - unfold system_info. go.
  - unfold um_uel_get. go.
  - unfold um_uel_info. go.
  - unfold get_uel. cbv zeta. go.
  - unfold um_find_uel. cbv zeta. go.
  - unfold current_dim. go.
  - unfold file_version. go.
  - unfold file_info. cbv zeta. go.
  - unfold error_count. go.
  - unfold store_domain_sets. go.
  - unfold allow_bogus_domains. go.
  - unfold map_acronyms_to_nan. go.
  - unfold data_error_count. go.
  - unfold data_error_record, data_error_record_x. go.
  - unfold data_error_record_x. go.
  - unfold get_special. go.
  - unfold map_value. go.
  - unfold acronym_count. go.
  - unfold acronym_get_info. go.
  - unfold acronym_get_mapping. go.
  - unfold acronym_index. go.
  - unfold acronym_name. cbv zeta. go.
  - unfold acronym_value. go.
  - unfold filter_exists. go.
  - unfold filter_register_start. cbv zeta. go. apply P_upd_dic; [exact Q|]. ds1; apply D_fstart; [exact CC|lia].
  - unfold filter_register. go. apply P_upd_dic; [exact Q|]. ds1. eapply D_fadd; eauto; try lia.
    eapply cur_filter_in. eassumption.
  - unfold filter_register_done. cbv zeta. go.
    match goal with H : map_status _ = (?s, ?d) |- _ => pose proof (map_status_ds (g_dic st)) as MS; pose proof (map_status_some (g_dic st)) as SS;
      rewrite H in MS, SS; cbn [fst snd] in MS, SS end.
    apply P_upd_dic; [apply P_dic; assumption|]. ds1. apply D_fdone; [exact CC| |apply SS].
    eapply cur_filter_in in H. rewrite <- (proj2 SS) in H. exact H.
Qed.
End Z.
End M.

(** ** Sequences of calls *)

(** The calls between opening and closing. *)
Definition session_call (c : call) : bool := match c with gdxGetLastError _ => true | _ => plain c end.

Section P.
Context (z : zlib) (P : gst -> Prop).
Context (LE : forall a, P a -> P (upd_err (set_r_last 0) a)).

Theorem session_ok : forall c st, (forall a b, P a -> atom c a b -> P b) -> session_call c = true -> call_ok c -> P st -> ok P (exec z c st).
Proof.
  intros c st CL S OK Q. destruct (plain c) eqn:C; [eapply exec_ok; eassumption|].
  destruct c; try discriminate S; try discriminate C. cbn [exec]. unfold get_last_error.
  destruct (f_strm (g_fil st)); [destruct (io =? 0)|]; cbn [ok]; try exact Q; apply LE; exact Q.
Qed.

Theorem run_ok : forall cs st, (forall c a b, In c cs -> P a -> atom c a b -> P b) -> forallb session_call cs = true -> Forall call_ok cs ->
  P st -> ok P (run z cs st).
Proof.
  induction cs as [|c cs IH]; intros st CL F OK Q; cbn [run].
  - exact Q.
  - cbn [forallb] in F. apply andb_true_iff in F. destruct F as [C F]. inversion OK; subst.
    apply ok_bind; [apply session_ok; try tauto; intros a b; apply CL; left; reflexivity|]. intros a s _ Q1.
    apply ok_bind; [apply IH; try tauto; intros c' a' b I; apply CL; right; exact I|]. intros xs s2 _ Q2. exact Q2.
Qed.

Corollary run_done : forall cs st rs st', (forall c a b, In c cs -> P a -> atom c a b -> P b) -> forallb session_call cs = true -> Forall call_ok cs ->
  P st -> run z cs st = Done (rs, st') -> P st'.
Proof. intros cs st rs st' CL F OK Q R. pose proof (run_ok cs st CL F OK Q) as X. rewrite R in X. exact X. Qed.
End P.
