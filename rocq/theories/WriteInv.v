(** * WriteInv: what is true between any two calls while a file is being written

    [winv] relates the object to the file written so far: every finished symbol has its
    data block, with exactly the records accepted, at the position noted in the symbol
    table. *)

From Coq Require Import String Sorted Permutation.
From Verif Require Import Base Prim Values Records LinkedData StrHash IntMap Strings AStream BufStream State StateTac
  FileImage ApiCore ApiFile ApiWrite Api FileFacts BlockFacts StreamFacts OpenFacts DicInv.
Open Scope Z_scope.
Open Scope list_scope.

(** ** Lists *)

Lemma Forall2_znth : forall {A B} (P : A -> B -> Prop) l m i a b, Forall2 P l m ->
  znth l i = Some a -> znth m i = Some b -> P a b.
Proof.
  intros A B P l m i a b F. unfold znth. destruct (i <? 0); [discriminate|]. generalize (Z.to_nat i) as n.
  induction F as [| x y l m H F IH]; intros [|n]; cbn; intros X Y; try discriminate.
  - congruence.
  - eauto.
Qed.

Lemma Forall2_zset : forall {A B} (P : A -> B -> Prop) l m i a b, Forall2 P l m ->
  znth m i = Some b -> P a b -> Forall2 P (zset i a l) m.
Proof.
  intros A B P l m i a b F. unfold znth, zset. destruct (i <? 0); [discriminate|]. generalize (Z.to_nat i) as n.
  induction F as [| x y l m H F IH]; intros [|n]; cbn; intros E Q; try discriminate; constructor; auto.
  congruence.
Qed.

Lemma Forall2_zset2 : forall {A B} (P : A -> B -> Prop) l m i a b, Forall2 P l m -> P a b -> Forall2 P (zset i a l) (zset i b m).
Proof.
  intros A B P l m i a b F Q. unfold zset. destruct (i <? 0); [assumption|]. generalize (Z.to_nat i) as n.
  induction F as [| x y l m H F IH]; intros [|n]; cbn; constructor; auto.
Qed.

Lemma zset_same : forall {A} i (a : A) l, znth l i = Some a -> zset i a l = l.
Proof.
  intros A i a l. unfold znth, zset. destruct (i <? 0); [discriminate|]. generalize (Z.to_nat i) as n.
  induction l as [| x l IH]; intros [|n]; cbn; intros E; try discriminate.
  - congruence.
  - f_equal. auto.
Qed.

Lemma zset_zset : forall {A} i (a b : A) l, zset i a (zset i b l) = zset i a l.
Proof.
  intros A i a b l. unfold zset. destruct (i <? 0); [reflexivity|]. generalize (Z.to_nat i) as n.
  induction l as [| x l IH]; intros [|n]; cbn; congruence.
Qed.

Lemma get_sym_upd_eq : forall d n f s, get_sym d n = Some s -> get_sym (upd_sym n f d) n = Some (f s).
Proof.
  intros d n f s H. unfold get_sym, upd_sym in *. destruct (znth (d_names d) (n - 1)) as [e|] eqn:E; [|discriminate].
  injection H as <-. cbn [d_names set_d_names]. rewrite znth_zset_eq by (eapply znth_Some; exact E). reflexivity.
Qed.

Lemma get_sym_upd_neq : forall d n m f, n <> m -> get_sym (upd_sym n f d) m = get_sym d m.
Proof.
  intros d n m f H. unfold get_sym, upd_sym. destruct (znth (d_names d) (n - 1)) as [e|] eqn:E; [|reflexivity].
  cbn [d_names set_d_names]. rewrite znth_zset_neq by lia. reflexivity.
Qed.

(** ** Blocks *)

Section Z.
Context (z : zlib).

(** The data block of symbol [s] is in the file [base] and holds the records [recs]. *)
Definition block_at (bo : border) (base : list Z) (s : sym) (recs : list srec) : Prop :=
  exists dsize mms n bs last,
    data_size (sy_type s) = Some dsize /\ length mms = sy_dim s /\ bounds_ok mms /\
    wr_recs bo (sy_dim s) mms recs bs last /\ Forall (rec_ok mms dsize) recs /\ zlen recs = sy_count s /\
    phys_at base (sy_pos s) (phys z (sy_comp s) (enc_blockhead bo (sy_dim s) n mms ++ bs ++ [255])).

(** The bit map of a symbol, if it has one, holds its elements. *)
Definition bits_are (s : sym) (keys : list (list Z)) : Prop := forall b, sy_bits s = Some b ->
  (sy_type s = dt_set /\ sy_dim s = 1%nat) /\ forall k, In k b <-> 0 <= k /\ In [k] keys.

Definition blk (lo : Z) (base : list Z) (e : str * sym) (o : option (list srec)) : Prop :=
  match o with
  | None => True
  | Some recs => block_at (z_host z) base (snd e) recs /\ lo <= sy_pos (snd e) /\ bits_are (snd e) (List.map fst recs)
  end.

Definition same_data (a b : sym) : Prop :=
  sy_pos a = sy_pos b /\ sy_dim a = sy_dim b /\ sy_type a = sy_type b /\ sy_count a = sy_count b /\ sy_comp a = sy_comp b.

Definition same_sym (a b : sym) : Prop := same_data a b /\ sy_bits a = sy_bits b.

Lemma bits_are_same : forall a b keys, same_sym a b -> bits_are a keys -> bits_are b keys.
Proof. intros a b keys [(_ & D & T & _) B] H l L. rewrite <- D, <- T. apply H. congruence. Qed.

Lemma block_at_same : forall bo base a b recs, same_data a b -> block_at bo base a recs -> block_at bo base b recs.
Proof.
  intros bo base a b recs (E1 & E2 & E3 & E4 & E5) H. unfold block_at in *. rewrite <- E1, <- E2, <- E3, <- E4, <- E5. exact H.
Qed.

Lemma blk_same : forall lo base n n' a b o, same_sym a b -> blk lo base (n, a) o -> blk lo base (n', b) o.
Proof.
  intros lo base n n' a b [r|] S; [|auto]. intros (B & L & X). cbn [snd] in *. split; [eapply block_at_same; [apply S|exact B]|].
  split; [|cbn [snd]; eapply bits_are_same; eassumption]. destruct S as [(E & _) _]. cbn [snd]. lia.
Qed.

Lemma blk_app : forall lo base t e o, blk lo base e o -> blk lo (base ++ t) e o.
Proof.
  intros lo base t e [r|]; [|auto]. intros [(dsize & mms & n & bs & last & A & B & C & D & E & F & G) L]. split; [|exact L].
  exists dsize, mms, n, bs, last. repeat (split; [assumption|]). apply phys_at_app. assumption.
Qed.

(** ** The invariant *)

Inductive gcur :=
| GIdle
| GRaw (n : Z) (o : option (list srec))
| GBuf (n : Z) (items : list (list Z * list Z)).
(** What has been accepted: per symbol the records of its finished block, if known, and the
    symbol being written. *)
Record ghost := mkG { gR : list (option (list srec)); gC : gcur }.

Record core (h : fhead) (base : list Z) (R : list (option (list srec))) (st : gst) : Prop := mkCore {
  co_nwp : f_nwp (g_fil st) = zlen base;
  co_head : exists rest, base = enc_head (z_host z) h ++ rest /\ 80 <= zlen rest;
  co_mip : f_mip (g_fil st) = zlen (enc_head (z_host z) h);
  co_hok : head_ok h;
  co_comp : f_compout (g_fil st) = is_comp h;
  co_hd : f_sysid (g_fil st) = h_sysid h /\ f_prod (g_fil st) = h_prod h /\ f_compr (g_fil st) = h_compr h;
  co_dic : dinv (zlen base) (g_dic st);
  co_blk : Forall2 (blk (zlen (enc_head (z_host z) h) + 80) base) (d_names (g_dic st)) R;
  co_tab : zlen (e_tab (g_env st)) = 10;
  co_err : 0 <= r_cnt (g_err st)
}.

Definition idle (base : list Z) (st : gst) : Prop :=
  (g_mode st = fw_init \/ (In (g_mode st) [f_raw_elem; f_map_elem; f_str_elem] /\ g_aft st = fw_init)) /\
  exists s, f_strm (g_fil st) = Some s /\ on_base z base s.

(** The records [recs] of symbol [n] have been written behind [base]. *)
Record wcur (base : list Z) (n : Z) (sy : sym) (recs : list srec) (st : gst) : Prop := mkWC {
  wc_cur : w_cur (g_wrk st) = CSym n;
  wc_sym : get_sym (g_dic st) n = Some sy;
  wc_dim : w_dim (g_wrk st) = sy_dim sy;
  wc_size : data_size (sy_type sy) = Some (w_dsize (g_wrk st));
  wc_mms : length (w_mms (g_wrk st)) = sy_dim sy;
  wc_pos : sy_pos sy = zlen base;
  wc_cnt : w_cnt (g_wrk st) = zlen recs;
  wc_bits : bits_are sy (List.map fst recs);
  wc_last : length (w_last (g_wrk st)) = sy_dim sy;
  wc_out : exists nrec bs s, f_strm (g_fil st) = Some s /\
             wr_recs (z_host z) (sy_dim sy) (w_mms (g_wrk st)) recs bs (w_last (g_wrk st)) /\
             writing base (sy_comp sy) (enc_blockhead (z_host z) (sy_dim sy) nrec (w_mms (g_wrk st)) ++ bs) s
}.

Definition good_recs (st : gst) (recs : list srec) : Prop :=
  bounds_ok (w_mms (g_wrk st)) /\ Forall (rec_ok (w_mms (g_wrk st)) (w_dsize (g_wrk st))) recs.

Definition raw_phase (base : list Z) (n : Z) (o : option (list srec)) (st : gst) : Prop :=
  In (g_mode st) [fw_dom_raw; fw_raw_data] /\
  exists sy recs, wcur base n sy recs st /\
    (forall r, o = Some r -> r = recs /\ good_recs st recs).

Definition item_ok (st : gst) (it : list Z * list Z) : Prop :=
  Forall2 in_bounds (w_mms (g_wrk st)) (fst it) /\ length (snd it) = w_dsize (g_wrk st) /\ Forall u64_ok (snd it).

Definition mm_ok (d : dic) (mm : Z * Z) : Prop := 0 <= fst mm <= INT_MAX /\ 0 <= snd mm <= uel_count d.

(** The caches of gdxDataWriteStr: a remembered label has a number within the bounds. *)
Inductive caches_ok : list str -> list Z -> list (Z * Z) -> Prop :=
| cs_nil : caches_ok [] [] []
| cs_cons : forall c k mm cs ks mms, (hd 0 c = 127 \/ in_bounds mm k) -> caches_ok cs ks mms ->
    caches_ok (c :: cs) (k :: ks) (mm :: mms).

Record buf_phase (base : list Z) (n : Z) (items : list (list Z * list Z)) (st : gst) : Prop := mkBP {
  bp_mode : In (g_mode st) [fw_dom_map; fw_map_data; fw_dom_str; fw_str_data];
  bp_cur : w_cur (g_wrk st) = CSym n;
  bp_sym : exists sy s, get_sym (g_dic st) n = Some sy /\ w_dim (g_wrk st) = sy_dim sy /\
             data_size (sy_type sy) = Some (w_dsize (g_wrk st)) /\ length (w_mms (g_wrk st)) = sy_dim sy /\
             f_strm (g_fil st) = Some s /\ on_base z base s /\ as_comp s = sy_comp sy /\ bits_are sy [];
  bp_sort : w_sort (g_wrk st) = Some items;
  bp_items : Forall (item_ok st) items;
  bp_mms : Forall (mm_ok (g_dic st)) (w_mms (g_wrk st));
  bp_str : In (g_mode st) [fw_dom_str; fw_str_data] ->
             caches_ok (w_lstr (g_wrk st)) (w_last (g_wrk st)) (w_mms (g_wrk st))
}.

Definition phase (base : list Z) (G : ghost) (st : gst) : Prop :=
  match gC G with
  | GIdle => idle base st
  | GRaw n o => raw_phase base n o st /\ znth (gR G) (n - 1) = Some None
  | GBuf n items => buf_phase base n items st /\ znth (gR G) (n - 1) = Some None
  end.

Definition winv (h : fhead) (base : list Z) (G : ghost) (st : gst) : Prop :=
  core h base (gR G) st /\ phase base G st.

(** After a start call in the middle of a symbol, the object has lost the symbol: only
    refusals (or undefined behaviour) follow. *)
Definition data_modes : list gmode := [fw_dom_raw; fw_dom_map; fw_dom_str; fw_raw_data; fw_map_data; fw_str_data].
Definition dead (st : gst) : Prop := In (g_mode st) data_modes /\ w_cur (g_wrk st) = CNull /\ w_sort (g_wrk st) = None.

(** ** Small steps *)

Lemma s_write_inv : forall bs st st', s_write bs st = Done st' ->
  exists s s', f_strm (g_fil st) = Some s /\ as_write bs s = Some s' /\ st' = s_log s' (OWrite bs) st.
Proof.
  intros bs st st' H. unfold s_write in H. destruct (f_strm (g_fil st)) as [s|]; [|discriminate].
  destruct (as_write bs s) as [s'|] eqn:E; [|discriminate]. injection H as <-. eauto.
Qed.

Lemma s_setpos_inv : forall p st st', s_setpos z p st = Done st' ->
  exists s, f_strm (g_fil st) = Some s /\ 0 <= p /\ st' = s_log (as_setpos z p s) (OSetPos p) st.
Proof.
  intros p st st' H. unfold s_setpos in H. destruct (f_strm (g_fil st)) as [s|]; [|discriminate].
  destruct (Z.ltb_spec p 0); [discriminate|]. injection H as <-. eauto.
Qed.

Lemma s_setcomp_inv : forall c st st', s_setcomp z c st = Done st' ->
  exists s, f_strm (g_fil st) = Some s /\ st' = s_log (as_setcomp z c s) (OSetComp c) st.
Proof.
  intros c st st' H. unfold s_setcomp in H. destruct (f_strm (g_fil st)) as [s|]; [|discriminate].
  injection H as <-. eauto.
Qed.

Lemma s_getpos_inv : forall st p st', s_getpos z st = Done (p, st') ->
  exists s s', f_strm (g_fil st) = Some s /\ as_getpos z s = Some (p, s') /\ st' = s_log s' OGetPos st.
Proof.
  intros st p st' H. unfold s_getpos in H. destruct (f_strm (g_fil st)) as [s|]; [|discriminate].
  destruct (as_getpos z s) as [[q s']|] eqn:E; [|discriminate]. injection H as <- <-. eauto.
Qed.

(** The core only depends on a few fields. *)
Lemma core_frame : forall h base R st st', core h base R st ->
  f_nwp (g_fil st') = f_nwp (g_fil st) -> f_mip (g_fil st') = f_mip (g_fil st) ->
  f_compout (g_fil st') = f_compout (g_fil st) -> f_sysid (g_fil st') = f_sysid (g_fil st) ->
  f_prod (g_fil st') = f_prod (g_fil st) -> f_compr (g_fil st') = f_compr (g_fil st) ->
  g_dic st' = g_dic st -> e_tab (g_env st') = e_tab (g_env st) -> 0 <= r_cnt (g_err st') -> core h base R st'.
Proof.
  intros h base R st st' [] E1 E2 E3 E4 E5 E6 E7 E8 E9.
  constructor; rewrite ?E1, ?E2, ?E3, ?E4, ?E5, ?E6, ?E7, ?E8; auto.
Qed.

(** Changing only the error bookkeeping. *)
Lemma winv_err : forall h base G st f, winv h base G st -> 0 <= r_cnt (f (g_err st)) -> winv h base G (upd_err f st).
Proof.
  intros h base G st f [C P] N. split.
  - eapply core_frame; [exact C|reflexivity..|exact N].
  - unfold phase in *. destruct (gC G) as [|n o|n items].
    + exact P.
    + destruct P as [(M & sy & recs & [] & X) Q]. split; [|exact Q]. split; [exact M|].
      exists sy, recs. split; [constructor; assumption|exact X].
    + destruct P as [[] Q]. split; [|exact Q]. constructor; assumption.
Qed.

Lemma set_error_eq : forall n st, exists f, set_error n st = upd_err f st /\ (0 <= r_cnt (g_err st) -> 0 <= r_cnt (f (g_err st))).
Proof.
  intros n st. unfold set_error. destruct (n =? 0).
  - exists (fun e => e). split; [destruct st; reflexivity|auto].
  - eexists. split; [reflexivity|]. cbn. lia.
Qed.

Lemma winv_set_error : forall h base G st n, winv h base G st -> winv h base G (set_error n st).
Proof.
  intros h base G st n W. destruct (set_error_eq n st) as (f & -> & N). apply winv_err; [assumption|]. apply N.
  apply (co_err _ _ _ _ (proj1 W)).
Qed.

Lemma winv_add_error : forall h base G st k v, winv h base G st -> winv h base G (add_error k v st).
Proof.
  intros h base G st k v W. apply winv_err; [assumption|]. pose proof (co_err _ _ _ _ (proj1 W)).
  destruct (r_list (g_err st)) as [l|]; [destruct (11 <=? zlen l)|]; assumption.
Qed.

Lemma winv_add_dom_error : forall h base G st k v, winv h base G st -> winv h base G (add_dom_error k v st).
Proof.
  intros h base G st k v W. apply winv_err; [assumption|]. pose proof (co_err _ _ _ _ (proj1 W)).
  destruct (r_list (g_err st)) as [l|]; [|assumption]. destruct (11 <=? zlen l); [assumption|].
  destruct (some_unseen k 0 l); assumption.
Qed.

End Z.
