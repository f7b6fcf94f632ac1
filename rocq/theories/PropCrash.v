(** * PropCrash: a file whose writing was interrupted (C25) *)

From Coq Require Import String Permutation Sorted.
From Verif Require Import Base Prim Values Records LinkedData StrHash IntMap Strings AStream BufStream State StateTac
  FileImage ApiCore ApiFile ApiWrite ApiRead Api FileFacts BlockFacts StreamFacts OpenFacts DicInv WriteInv WriteSteps Journal WriteCalls WriteTrace
  FileFlow Footprint SessInv Sessions Vocab Reopen Cases PropMarks PropStruct Crash.
Open Scope Z_scope.
Open Scope list_scope.

(** The physical writes to the file that a session has made, or makes when it ends now. *)
Definition disk_writes (z : zlib) (st : gst) : list (Z * list Z) := physical z (rev (f_ops (g_fil st))) (f_start (g_fil st)).

(** ** The operations of a session *)

Section Log.
Context (z : zlib) (T : list Z) (first : list sop).

(** The stream is where the operations lead; after the first ones, none goes back before
    the end of [T]. *)
Definition fine (f : fil) : Prop :=
  f_start f = [] /\
  (exists rs s, f_strm f = Some s /\ aruns z (rev (f_ops f)) (as_open []) = Some (rs, s)) /\
  exists new, f_ops f = new ++ first /\ Forall (safe_op T) new.
Definition fine_at (n : Z) (f : fil) : Prop := fine f /\ f_nwp f = n.
Notation P n := (fun st : gst => fine_at n (g_fil st)).

Lemma logged_step : forall ops rs s o r s', aruns z (rev ops) (as_open []) = Some (rs, s) -> astep z o s = Some (r, s') ->
  exists rs', aruns z (rev (o :: ops)) (as_open []) = Some (rs', s').
Proof. intros ops rs s o r s' R A. cbn [rev]. rewrite (aruns_app z _ _ _ _ _ R). cbn [aruns]. rewrite A. eexists. reflexivity. Qed.

Lemma log_fine : forall n s o r s' st, fine_at n (g_fil st) -> f_strm (g_fil st) = Some s -> astep z o s = Some (r, s') -> safe_op T o -> fine_at n (g_fil (s_log s' o st)).
Proof.
  intros n s o r s' st ((F0 & (rs & s0 & S0 & R) & new & N & FN) & W) S A O. assert (s0 = s) by congruence. subst s0. split; [|exact W]. split; [exact F0|]. split.
  - destruct (logged_step _ _ _ _ _ _ R A) as [rs' R']. exists rs', s'. split; [reflexivity|exact R'].
  - exists (o :: new). split; [cbn; rewrite N; reflexivity|constructor; assumption].
Qed.
Lemma write_fine : forall n bs st, P n st -> okg (P n) (s_write bs st).
Proof.
  intros n bs st F. destruct (s_write bs st) as [st'|] eqn:E; [|exact I]. apply s_write_inv in E. destruct E as (s & s' & S & A & ->). cbn [okg].
  eapply log_fine; [exact F|exact S|cbn [astep]; rewrite A; reflexivity|exact I].
Qed.
Lemma getpos_fine : forall n st, P n st -> ok (P n) (s_getpos z st).
Proof.
  intros n st F. destruct (s_getpos z st) as [[p st']|] eqn:E; [|exact I]. apply s_getpos_inv in E. destruct E as (s & s' & S & A & ->). cbn [ok].
  eapply log_fine; [exact F|exact S|cbn [astep]; rewrite A; reflexivity|exact I].
Qed.
Lemma setcomp_fine : forall n c st, P n st -> okg (P n) (s_setcomp z c st).
Proof.
  intros n c st F. destruct (s_setcomp z c st) as [st'|] eqn:E; [|exact I]. apply s_setcomp_inv in E. destruct E as (s & S & ->). cbn [okg].
  eapply log_fine; [exact F|exact S|reflexivity|exact I].
Qed.
Lemma setpos_fine : forall n p st, P n st -> zlen T <= p -> okg (P n) (s_setpos z p st).
Proof.
  intros n p st F L. destruct (s_setpos z p st) as [st'|] eqn:E; [|exact I]. apply s_setpos_inv in E. destruct E as (s & S & Q & ->). cbn [okg].
  eapply log_fine; [exact F|exact S|cbn [astep]; destruct (Z.ltb_spec p 0); [lia|reflexivity]|exact L].
Qed.

Lemma err_fil : forall e st, g_fil (set_error e st) = g_fil st.
Proof. intros e st. unfold set_error. destruct (e =? 0); reflexivity. Qed.
Lemma enter_fil : forall a b st, g_fil (enter a b st) = g_fil st.
Proof. intros a b st. unfold enter. destruct (mode_in _ _); reflexivity. Qed.
Lemma err_only_fil : forall a b, err_only a b -> g_fil b = g_fil a.
Proof. intros a b (f & -> & _). reflexivity. Qed.
Lemma add_error_fil : forall k v st, g_fil (add_error k v st) = g_fil st.
Proof. intros. apply err_only_fil, err_only_add_error. Qed.
Lemma add_dom_error_fil : forall k v st, g_fil (add_dom_error k v st) = g_fil st.
Proof. intros. apply err_only_fil, err_only_add_dom_error. Qed.
Lemma good_new_fil : forall nm st, g_fil (snd (good_new_symbol nm st)) = g_fil st.
Proof. intros nm st. unfold good_new_symbol. repeat match goal with |- context [if ?b then _ else _] => destruct b end; cbn [snd]; rewrite ?err_fil; reflexivity. Qed.

(** The calls of a session, one after the other. *)
Ltac here := cbn [ok okg]; cbv beta; rewrite ?add_error_fil, ?add_dom_error_fil, ?err_fil, ?enter_fil; rewrite ?add_error_fil, ?add_dom_error_fil, ?err_fil, ?enter_fil; match goal with H : ?t |- _ => lazymatch t with context [fine_at] => exact H end end.
Ltac split_on b := lazymatch b with context [match ?x with _ => _ end] => split_on x | _ => destruct b eqn:? end.
Ltac go1 :=
  lazymatch goal with
  | |- ok _ UB => exact I
  | |- okg _ UB => exact I
  | |- ok _ (Done (_, _)) => here
  | |- okg _ (Done _) => here
  | |- ok _ (obind (s_write _ _) _) => apply ok_bindg; [apply write_fine; here|intros ? _ ?]
  | |- ok _ (obind (s_setcomp _ _ _) _) => apply ok_bindg; [apply setcomp_fine; here|intros ? _ ?]
  | |- ok _ (obind (s_getpos _ _) _) => apply ok_bind; [apply getpos_fine; here|intros ? ? _ ?]
  | |- okg _ (obind (s_write _ _) _) => apply okg_bindg; [apply write_fine; here|intros ? _ ?]
  | |- okg _ (obind (s_setcomp _ _ _) _) => apply okg_bindg; [apply setcomp_fine; here|intros ? _ ?]
  | |- okg _ (obind (s_getpos _ _) _) => apply okg_bind; [apply getpos_fine; here|intros ? ? _ ?]
  | |- okg _ (s_write _ _) => apply write_fine; here
  | |- ok _ (obind ?x _) => apply ok_pure; intros ? _
  | |- okg _ (obind ?x _) => apply okg_pure; intros ? _
  | |- ok _ (match ?b with _ => _ end) => split_on b
  | |- okg _ (match ?b with _ => _ end) => split_on b
  end; cbv beta iota zeta.
Ltac go := cbv beta iota zeta; repeat go1.

Lemma prepare_fine : forall n name text dim typ uinfo st, P n st -> ok (P n) (prepare_symbol_write z name text dim typ uinfo st).
Proof.
  intros n name text dim typ uinfo st F. unfold prepare_symbol_write. cbv zeta. destruct (negb _); [go|].
  match goal with |- context [good_new_symbol name ?s] => pose proof (good_new_fil name s) as G; destruct (good_new_symbol name s) as [b s1] end. cbn [snd] in G.
  assert (F1 : fine_at n (g_fil s1)) by (rewrite G; exact F). clear F G. go.
Qed.
Lemma init_fine : forall n nr st, P n st -> zlen T <= n -> okg (P n) (init_do_write z nr st).
Proof.
  intros n nr st F L. unfold init_do_write. cbv zeta. apply okg_bindg; [apply setpos_fine; [exact F|destruct F as [_ ->]; exact L]|intros s _ F1]. go.
Qed.
Lemma do_write_fine : forall n k v st, P n st -> ok (P n) (do_write z k v st).
Proof. intros n k v st F. unfold do_write. go. Qed.
Lemma write_all_fine : forall n rs st, P n st -> okg (P n) (write_all z rs st).
Proof.
  intros n. induction rs as [|[k v] rs IH]; intros st F; cbn [write_all]; [exact F|]. apply okg_bind; [apply do_write_fine; exact F|]. intros b s _ F1. cbv beta iota. apply IH. exact F1.
Qed.
Lemma str_keys_fil : forall keys i st b st', str_keys keys i st = Done (b, st') -> g_fil st' = g_fil st.
Proof.
  induction keys as [| s keys IH]; intros i st b st' H; cbn [str_keys] in H; [injection H as <- <-; reflexivity|].
  cbv zeta in H. destruct (nth_error _ i); [|discriminate]. destruct (nth_error _ i); [|discriminate]. destruct (nth_error _ i); [|discriminate].
  obind_inv H. destruct x as [[[[c' n] mm'] d']|]; [apply IH in H; exact H|]. injection H as <- <-. apply err_fil.
Qed.

Lemma set_domains_fil : forall cur ids i res st b res' st', set_domains cur ids i res st = Done (b, res', st') -> g_fil st' = g_fil st.
Proof.
  intros cur. induction ids as [|id ids IH]; intros i res st b res' st' H; cbn [set_domains] in H; [injection H as <- <- <-; reflexivity|]. cbv zeta in H.
  destruct (str_eqb _ _); [apply IH in H; exact H|]. destruct (_ <=? 0); [apply IH in H; rewrite H; reflexivity|]. obind_inv H. destruct x as [|t| |].
  - injection H as <- <- <-. apply err_fil.
  - apply IH in H. rewrite H. match goal with |- context [if ?c then _ else _] => destruct c; reflexivity end.
  - apply IH in H. exact H.
  - apply IH in H. rewrite H. reflexivity.
Qed.

(** gdxDataWriteDone moves the end of the data. *)
Lemma write_done_fine : forall n st, P n st -> zlen T <= n -> okg (fun st => fine (g_fil st)) (write_done z st).
Proof.
  intros n st F L. unfold write_done.
  assert (S1 : okg (P n) (if mode_in (g_mode st) [fw_raw_data; fw_dom_raw] then Done st
            else match w_sort (g_wrk st) with
                 | None => UB
                 | Some items =>
                     do st <- init_do_write z (zlen items) st ;;
                     do rs <- sorted_items (w_dim (g_wrk st)) items ;;
                     do st <- write_all z rs st ;;
                     Done (upd_wrk (fun w => set_w_sort None
                             (set_w_rd (match items with [] => None | _ => Some [] end) w)) st)
                 end)).
  { destruct (mode_in _ _); [exact F|]. destruct (w_sort _) as [items|]; [|exact I]. apply okg_bindg; [apply init_fine; assumption|intros s _ F1]. apply okg_pure. intros rs _.
    apply okg_bindg; [apply write_all_fine; exact F1|]. intros s2 _ F2. exact F2. }
  match goal with |- okg _ (obind ?x _) => destruct x as [s1|]; [|exact I] end. cbn [okg obind] in *. clear F st.
  pose proof (write_fine n (enc_byte 255) s1 S1) as S2. destruct (s_write (enc_byte 255) s1) as [s2|]; [|exact I]. cbn [okg obind] in *. clear S1 s1.
  pose proof (getpos_fine n s2 S2) as S3. destruct (s_getpos z s2) as [[p s3]|]; [|exact I]. cbn [ok obind] in *. clear S2 s2.
  assert (F4 : fine_at p (g_fil (upd_fil (set_f_nwp p) s3))) by (destruct S3 as [S3 _]; split; [exact S3|reflexivity]).
  cbv zeta. revert F4. generalize (upd_fil (set_f_nwp p) s3). clear S3 s3 n L. intros s3 F4. destruct (cur_sym s3) as [[k sy]|]; [|exact I]. cbn [obind].
  match goal with |- okg _ (obind (s_setcomp z false ?s) _) => pose proof (setcomp_fine p false s F4) as S5; destruct (s_setcomp z false s) as [s5|]; [|exact I] end. cbn [okg obind] in *. exact (proj1 S5).
Qed.

Lemma call_fine : forall c n st, P n st -> zlen T <= n -> In (g_mode st) write_modes -> keeps_writing c = true -> c <> gdxDataWriteDone -> ok (P n) (exec z c st).
Proof.
  intros c n st F L M K ND. cbv beta in F. destruct (looks c) eqn:LK.
  { destruct (exec z c st) as [[r st']|] eqn:E; [|exact I]. cbn [ok]. rewrite (err_only_fil st st'); [exact F|]. eapply looks_err_only; eassumption. }
  destruct c; try discriminate K; try discriminate LK; try congruence; cbn [exec]; clear K LK ND M.
  - unfold write_raw_start, okay. apply ok_bind; [apply prepare_fine; exact F|]. intros b s _ F1. cbv beta iota. destruct (negb b); [exact F1|]. cbv zeta. apply ok_bindg; [apply init_fine; assumption|]. intros s2 _ F2. exact F2.
  - unfold write_raw_start_bounds, okay. apply ok_bind; [apply prepare_fine; exact F|]. intros b s _ F1. cbv beta iota. destruct (negb b); [exact F1|]. cbv zeta. destruct (_ || _); [exact I|]. apply ok_bindg; [apply init_fine; assumption|]. intros s2 _ F2. exact F2.
  - unfold write_raw, checked, refuse. cbv zeta. rewrite <- (enter_fil fw_dom_raw fw_raw_data st) in F. revert F. generalize (enter fw_dom_raw fw_raw_data st). intros s F. destruct (mode_in _ _); [|go].
    apply ok_bind; [apply do_write_fine; exact F|]. intros b s2 _ F2. exact F2.
  - unfold write_map_start, okay. apply ok_bind; [apply prepare_fine; exact F|]. intros b s _ F1. cbv beta iota. destruct (negb b); exact F1.
  - unfold write_map, checked, refuse, fail_with, okay, add_item. cbv zeta. rewrite <- (enter_fil fw_dom_map fw_map_data st) in F. revert F. generalize (enter fw_dom_map fw_map_data st). intros s F. destruct (mode_in _ _); [|go].
    destruct (_ || _); [exact I|]. destruct (map_keys _ _ _) as [mr mms]. destruct mr; [|go]. cbn [upd_wrk upd g_wrk set_g_wrk w_sort set_w_mms]. destruct (w_sort (g_wrk s)); [|exact I]. exact F.
  - unfold write_str_start, okay. apply ok_bind; [apply prepare_fine; exact F|]. intros b s _ F1. cbv beta iota. destruct (negb b); exact F1.
  - unfold write_str, checked, refuse, fail_with, okay, add_item. cbv zeta. rewrite <- (enter_fil fw_dom_str fw_str_data st) in F. revert F. generalize (enter fw_dom_str fw_str_data st). intros s F. destruct (mode_in _ _); [|go].
    destruct (_ || _); [exact I|]. destruct (str_keys _ _ _) as [[b s1]|] eqn:E; [|exact I]. apply str_keys_fil in E. rewrite <- E in F. cbn [obind]. destruct b; [|exact F]. destruct (w_sort (g_wrk s1)); [|exact I]. exact F.
  - unfold symbol_set_domain, checked, refuse. destruct (mode_in _ _); [|go]. destruct (w_cur (g_wrk st)) as [|k|]; [exact F| |exact I]. destruct (get_sym _ _) as [sy|]; [|exact I]. destruct (_ <? _)%nat; [exact I|]. cbv zeta.
    match goal with |- ok _ (obind ?x _) => destruct x as [[[b res] s1]|] eqn:E; [|exact I] end. apply set_domains_fil in E. cbn [obind]. match type of E with _ = g_fil ?s => change (g_fil s) with (g_fil st) in E end. rewrite <- E in F. destruct (negb b); exact F.
  - unfold symbol_set_domain_x, okay, fail_with. go.
  - unfold add_alias, checked, refuse, okay, fail_with. destruct (mode_in _ _); [|go]. cbv zeta. destruct (negb _); [go|].
    match goal with |- ok _ (let '(n, name) := ?X in _) => destruct X as [k nm] end. match goal with |- ok _ (match ?x with _ => _ end) => destruct x as [t|]; [|exact I] end.
    match goal with |- ok _ (if ?b then _ else _) => destruct b; [go|] end.
    pose proof (good_new_fil nm st) as G. destruct (good_new_symbol nm st) as [b s1]. cbn [snd] in G. rewrite <- G in F. clear G. destruct (negb b); [exact F|]. apply ok_pure. intros tx _. exact F.
  - unfold symbol_add_comment, checked, refuse, okay, fail_with. go.
  - unfold add_set_text. go.
  - unfold set_text_node_nr, okay. go.
  - unfold register_raw_start, checked, refuse, okay. go.
  - unfold register_raw, checked, refuse, okay, fail_with. go.
  - unfold register_str_start, checked, refuse, okay. go.
  - unfold register_str, checked, refuse, okay, fail_with. go.
  - unfold register_map_start, checked, refuse, okay. go.
  - unfold register_map, checked, refuse, okay, fail_with. go.
  - unfold register_done, checked, refuse, okay. go.
  - unfold rename_uel. go.
  - unfold acronym_add. go.
  - unfold acronym_set_info, okay, fail_with. go. all: match goal with X : good_new_symbol ?nm ?s = _ |- _ => pose proof (good_new_fil nm s) as G; rewrite X in G end; cbn [snd] in G; rewrite <- G in F; here.
  - unfold acronym_next_nr. cbv zeta. destruct (0 <=? nv); exact F.
  - unfold set_special, fail_with, okay. go.
  - unfold set_read_special, okay. go.
  - go.
  - go.
  - go.
  - go.
Qed.
End Log.

(** ** Sessions *)

Section S.
Context (z : zlib).

Lemma enc_int_0 : forall bo, enc_int bo 0 = [0; 0; 0; 0].
Proof. intros [a [] c]; reflexivity. Qed.
Definition file_head (prod : str) (compr : Z) : list Z := enc_head (z_host z) (new_head prod compr).
(** The header, followed by what a finished file does not have there. *)
Definition no_index (prod : str) (compr : Z) : list Z := file_head prod compr ++ [0; 0; 0; 0].
Definition first_ops (prod : str) (compr : Z) : list sop := [OGetPos; OWrite index_room; OGetPos; OWrite (file_head prod compr)].

Lemma no_index_base : forall prod compr, new_base z prod compr = no_index prod compr ++ repeat 0 76.
Proof. intros. unfold new_base, no_index, file_head. rewrite <- app_assoc. reflexivity. Qed.

Lemma open_fine : forall name prod compr st0 r st, str_ok prod -> exec z (gdxOpenWriteEx name prod compr) st0 = Done (r, st) -> r_code r = 1 ->
  fine z (no_index prod compr) (first_ops prod compr) (g_fil st) /\ zlen (no_index prod compr) <= f_nwp (g_fil st) /\ zlen prod <= 255.
Proof.
  intros name prod compr st0 r st SP H RC. cbn [exec] in H. destruct (open_write_ok z _ _ _ _ _ _ SP H RC) as ([CO _] & _).
  destruct (open_write_eq z _ _ _ _ _ _ H RC) as (_ & _ & PL & H'). clear H. split; [|split; [|exact PL]].
  2:{ rewrite (co_nwp _ _ _ _ _ CO), no_index_base, zlen_app. pose proof (zlen_nonneg (repeat 0 76)). lia. }
  clear CO RC PL SP. fold (file_head prod compr) in H'. set (X := fresh_session z name prod (compr mod 2) st0) in *.
  assert (FX : f_start (g_fil X) = [] /\ f_ops (g_fil X) = [] /\ f_strm (g_fil X) = Some (as_open [])) by (split; [reflexivity|split; reflexivity]).
  clearbody X. destruct FX as (F0 & F1 & F2). clear st0.
  assert (ST : forall o s s' X rr, f_start (g_fil X) = [] -> (exists rs s, f_strm (g_fil X) = Some s /\ aruns z (rev (f_ops (g_fil X))) (as_open []) = Some (rs, s)) ->
    f_strm (g_fil X) = Some s -> astep z o s = Some (rr, s') ->
    f_start (g_fil (s_log s' o X)) = [] /\ (exists rs s, f_strm (g_fil (s_log s' o X)) = Some s /\ aruns z (rev (f_ops (g_fil (s_log s' o X)))) (as_open []) = Some (rs, s)) /\ f_ops (g_fil (s_log s' o X)) = o :: f_ops (g_fil X)).
  { intros o s s' Y rr Y0 (rs & s0 & Y1 & Y2) Y3 A. assert (s0 = s) by congruence. subst s0. split; [exact Y0|]. split; [|reflexivity]. destruct (logged_step z _ _ _ _ _ _ Y2 A) as [rs' R']. exists rs', s'. split; [reflexivity|exact R']. }
  assert (LG : exists rs s, f_strm (g_fil X) = Some s /\ aruns z (rev (f_ops (g_fil X))) (as_open []) = Some (rs, s)) by (exists [], (as_open []); rewrite F1; split; [exact F2|reflexivity]). clear F2.
  obind_inv H'. apply s_write_inv in E. destruct E as (s & s' & S & A & ->). destruct (ST (OWrite (file_head prod compr)) s s' X RUnit F0 LG S) as (G0 & G1 & G2); [cbn [astep]; rewrite A; reflexivity|].
  rewrite F1 in G2. clear F0 F1 LG S A. revert H' G0 G1 G2. generalize (s_log s' (OWrite (file_head prod compr)) X). clear X s s'. intros X H' F0 LG F1.
  obind_inv H'. match goal with Y : (Z * gst)%type |- _ => destruct Y as [p1 X1] end. apply s_getpos_inv in E. destruct E as (s & s' & S & A & ->). destruct (ST OGetPos s s' X (RPos p1) F0 LG S) as (G0 & G1 & G2); [cbn [astep]; rewrite A; reflexivity|].
  rewrite F1 in G2. clear F0 F1 LG S A. revert H' G0 G1 G2. generalize (s_log s' OGetPos X). clear X s s'. intros X H' F0 LG F1.
  obind_inv H'. apply s_write_inv in E. destruct E as (s & s' & S & A & ->). destruct (ST (OWrite index_room) s s' X RUnit F0 LG S) as (G0 & G1 & G2); [cbn [astep]; rewrite A; reflexivity|].
  rewrite F1 in G2. clear F0 F1 LG S A. revert H' G0 G1 G2. generalize (s_log s' (OWrite index_room) X). clear X s s'. intros X H' F0 LG F1.
  obind_inv H'. match goal with Y : (Z * gst)%type |- _ => destruct Y as [p2 X1] end. apply s_getpos_inv in E. destruct E as (s & s' & S & A & ->). destruct (ST OGetPos s s' X (RPos p2) F0 LG S) as (G0 & G1 & G2); [cbn [astep]; rewrite A; reflexivity|].
  rewrite F1 in G2. clear F0 F1 LG S A. revert H' G0 G1 G2. generalize (s_log s' OGetPos X). clear X s s' ST. intros X H' F0 LG F1.
  injection H' as <- <-. split; [exact F0|]. split; [exact LG|]. exists []. split; [exact F1|constructor].
Qed.

Lemma write_done_mode : forall st st', write_done z st = Done st' -> g_mode st' = fw_init.
Proof.
  intros st st' H. unfold write_done in H. obind_inv H. obind_inv H. obind_inv H. match goal with Y : (Z * gst)%type |- _ => destruct Y end. cbv zeta in H. obind_inv H. match goal with Y : (Z * sym)%type |- _ => destruct Y end.
  obind_inv H. match goal with Y : s_setcomp z false _ = Done _ |- _ => apply s_setcomp_inv in Y; destruct Y as (sx & SX & ->) end. injection H as <-. reflexivity.
Qed.

Lemma jinv_room : forall h b J st, jinv z h b J st -> g_mode st = fw_init -> zlen b <= f_nwp (g_fil st).
Proof.
  intros h b J st [(t & G & [CO _] & _)|[_ [D _]]] M.
  - rewrite (co_nwp _ _ _ _ _ CO), zlen_app. pose proof (zlen_nonneg t). lia.
  - rewrite M in D. unfold data_modes in D. cbn in D. intuition discriminate.
Qed.
Lemma jinv_mode : forall h b J st, jinv z h b J st -> In (g_mode st) write_modes.
Proof. intros h b J st [(t & G & W & _)|[_ D]]; [eapply winv_write_mode; exact W|apply dead_write_mode; exact D]. Qed.

Lemma step_fine : forall prod compr first J c st r st', jinv z (new_head prod compr) (new_base z prod compr) J st -> keeps_writing c = true -> call_ok c -> exec z c st = Done (r, st') ->
  fine z (no_index prod compr) first (g_fil st) -> zlen (no_index prod compr) <= f_nwp (g_fil st) ->
  fine z (no_index prod compr) first (g_fil st') /\ zlen (no_index prod compr) <= f_nwp (g_fil st').
Proof.
  intros prod compr first J c st r st' JI K O H F L. assert (FA : fine_at z (no_index prod compr) first (f_nwp (g_fil st)) (g_fil st)) by (split; [exact F|reflexivity]).
  assert (DEC : c = gdxDataWriteDone \/ c <> gdxDataWriteDone) by (destruct c; (left; reflexivity) || (right; discriminate)). destruct DEC as [->|ND].
  - pose proof (jinv_step z _ _ _ _ _ _ _ JI K O H) as J'. cbn [exec] in H. unfold data_write_done, checked, refuse, okay in H. destruct (mode_in _ _).
    + obind_inv H. injection H as <- <-. pose proof (write_done_fine z _ _ _ _ FA L) as W. rewrite E in W. cbn [okg] in W. split; [exact W|].
      apply write_done_mode in E. pose proof (jinv_room _ _ _ _ J' E) as Q. rewrite no_index_base, zlen_app in Q. pose proof (zlen_nonneg (repeat 0 76)). lia.
    + injection H as <- <-. rewrite !err_fil. auto.
  - pose proof (call_fine z _ _ c _ st FA L (jinv_mode _ _ _ _ JI) K ND) as C. rewrite H in C. cbn [ok] in C. destruct C as [C1 C2]. rewrite C2. auto.
Qed.

Lemma run_fine : forall prod compr first cs J st rs st', jinv z (new_head prod compr) (new_base z prod compr) J st -> Forall (fun c => keeps_writing c = true /\ call_ok c) cs -> run z cs st = Done (rs, st') ->
  fine z (no_index prod compr) first (g_fil st) -> zlen (no_index prod compr) <= f_nwp (g_fil st) ->
  fine z (no_index prod compr) first (g_fil st') /\ zlen (no_index prod compr) <= f_nwp (g_fil st').
Proof.
  intros prod compr first. induction cs as [|c cs IH]; intros J st rs st' JI FC R F L; cbn [run] in R; [injection R as <- <-; auto|].
  obind_inv R. destruct x as [r s1]. obind_inv R. destruct x as [rs1 s2]. injection R as <- <-. destruct (Forall_inv FC) as [K O].
  destruct (step_fine _ _ _ _ _ _ _ _ JI K O E F L) as [F1 L1]. eapply IH; [eapply jinv_step; eassumption|exact (Forall_inv_tail FC)|eassumption|exact F1|exact L1].
Qed.

Lemma session_fine : forall name prod compr cs rs st, writes_new z name prod compr cs rs st ->
  fine z (no_index prod compr) (first_ops prod compr) (g_fil st) /\ zlen (no_index prod compr) <= f_nwp (g_fil st) /\ zlen prod <= 255.
Proof.
  intros name prod compr cs rs st (st0 & sta & ra & O & RC & SP & FC & R). destruct (open_fine _ _ _ _ _ _ SP O RC) as (F & L & PL).
  destruct (open_write_ok z _ _ _ _ _ _ SP O RC) as (W & J & _). assert (JI : jinv z (new_head prod compr) (new_base z prod compr) new_journal sta).
  { left. exists [], (mkG [] GIdle). rewrite app_nil_r. auto. }
  destruct (run_fine _ _ _ _ _ _ _ _ JI FC R F L). auto.
Qed.
(** *** Opening such a file *)

Ltac hstep tac :=
  lazymatch goal with
  | R : rdp _ ?F ?v ?s |- context [s_parse ?z ?p (ws ?s ?ops ?X)] =>
     let E := fresh "E" in let EE := fresh "EE" in let s1 := fresh "s" in let o1 := fresh "ops" in let R1 := fresh "R" in
     eassert (E : p v = Some (_, _)) by (tac);
     destruct (parse_rdp z p F v s ops X _ _ R E) as (s1 & o1 & EE & R1);
     rewrite EE; clear EE E R; cbn [obind]
  end.

Lemma header_no_index : forall F h v rest s ops X k, head_ok h -> rdp z F F s -> int_ok v -> v <> MARK_BOI -> r_last (g_err X) = 0 ->
  F = enc_head (z_host z) h ++ enc_int (z_host z) v ++ rest -> exists st', open_header z (ws s ops X) k = Done (ret_i 0 [ERR_OPEN_BOI], st').
Proof.
  intros F h v0 rest s ops X k (H1 & H2 & H3 & H4) R IV NV RL E.
  assert (V : exists v, v = F) by eauto. destruct V as [v V]. rewrite <- V in R at 2. rewrite E in V.
  unfold open_header. unfold enc_head, enc_header in V. rewrite <- !app_assoc in V. subst v.
  hstep ltac:(apply p_order_enc). cbv beta iota zeta.
  change (upd_fil (set_f_bo (z_host z)) (ws s0 ops0 X)) with (ws s0 ops0 (upd_fil (set_f_bo (z_host z)) X)).
  hstep ltac:(apply p_byte_enc; unfold byte_ok, gdxHeaderNr; lia).
  unfold check_or at 1. rewrite Z.eqb_refl.
  hstep ltac:(apply p_str_enc). unfold check_or at 1. rewrite str_eqb_refl.
  hstep ltac:(apply p_int_enc; unfold int_ok, INT_MIN, INT_MAX, GDX_VERSION; lia).
  match goal with |- context [upd_fil ?g (ws ?s ?o ?X)] => change (upd_fil g (ws s o X)) with (ws s o (upd_fil g X)) end.
  unfold check_or at 1. change (GDX_VERSION <=? GDX_VERSION) with true. change (GDX_VERSION <=? 5) with false. cbv iota.
  hstep ltac:(apply p_int_enc; exact H1).
  hstep ltac:(apply p_str_enc).
  hstep ltac:(apply p_str_enc).
  match goal with |- context [upd_fil ?g (ws ?s ?o ?X)] => change (upd_fil g (ws s o X)) with (ws s o (upd_fil g X)) end.
  match goal with R : rdp _ _ _ ?s |- context [s_getpos z (ws ?s ?o ?X)] =>
    destruct (getpos_rdp z _ _ s o X R) as (s7 & o7 & EE & R') end.
  rewrite EE. cbn [obind]. clear EE.
  match goal with |- context [upd_fil ?g (ws s7 ?o ?X)] => change (upd_fil g (ws s7 o X)) with (ws s7 o (upd_fil g X)) end.
  hstep ltac:(apply p_int_enc; exact IV).
  unfold check_or. destruct (Z.eqb_spec v0 MARK_BOI) as [Q|Q]; [contradiction|].
  match goal with |- context [file_error (set_error _ (ws ?s ?o ?Y))] => generalize s, o; assert (RY : r_last (g_err Y) = 0) by exact RL; revert RY; generalize Y end. clear.
  intros Y RY s o. unfold file_error. eexists. unfold set_error. change (ERR_OPEN_BOI =? 0) with false. cbv iota. cbn. rewrite RY. reflexivity.
Qed.

Lemma no_index_refused : forall prod compr F rd name mode, text_ok prod -> has (no_index prod compr) F -> g_mode rd = f_not_open -> name <> [] -> disk_get (e_disk (g_env rd)) name = Some F ->
  exists st', exec z (gdxOpenReadEx name mode) rd = Done (ret_i 0 [ERR_OPEN_BOI], st').
Proof.
  intros prod compr F rd name mode TP [b HF] M NE D. cbn [exec]. unfold open_read. rewrite M. match goal with |- context [if negb ?c then _ else _] => change c with true end. cbn [negb]. cbv iota zeta.
  destruct name as [| ch name]; [congruence|]. set (nm := ch :: name) in *. clearbody nm.
  match goal with |- context [e_disk (g_env ?s)] => change (e_disk (g_env s)) with (e_disk (g_env rd)) end. rewrite D.
  match goal with |- context [open_stream nm F ?s] => assert (RL : r_last (g_err (open_stream nm F s)) = 0) by reflexivity; assert (WS : open_stream nm F s = ws (as_open F) [] (open_stream nm F s)) by reflexivity; revert RL WS; generalize (open_stream nm F s) end.
  intros X RL WS. rewrite WS. eapply (header_no_index F (new_head prod compr) 0 b); [| | | |exact RL|].
  - split; [|split; [|split]].
    + unfold new_head, int_ok, INT_MIN, INT_MAX. cbn [h_compr]. pose proof (Z.mod_pos_bound compr 2 ltac:(lia)). lia.
    + split; [apply str_ok_test; vm_compute; reflexivity|vm_compute; discriminate].
    + exact TP.
    + vm_compute. reflexivity.
  - split; [split; [reflexivity|split; reflexivity]|]. cbn [as_open as_pos]. lia.
  - unfold int_ok, INT_MIN, INT_MAX. lia.
  - discriminate.
  - rewrite HF. unfold no_index, file_head. rewrite <- app_assoc. rewrite enc_int_0. reflexivity.
Qed.

Lemma app_inv_len : forall {A} (a b x y : list A), a ++ x = b ++ y -> length a = length b -> a = b /\ x = y.
Proof.
  intros A. induction a as [|h a IH]; intros [|k b] x y E L; try discriminate L; [auto|]. cbn [app] in E. injection E as -> E. injection L as L. destruct (IH _ _ _ E L) as [-> ->]. auto.
Qed.
Lemma preamble_inj : forall bo bo', preamble bo = preamble bo' -> bo = bo'.
Proof. intros [[] [] []] [[] [] []] H; vm_compute in H; try discriminate H; reflexivity. Qed.
Lemma preamble_length : forall bo, length (preamble bo) = 17%nat.
Proof. intros [[] [] []]; reflexivity. Qed.
Lemma preamble_len : forall bo bo', length (preamble bo) = length (preamble bo').
Proof. intros bo bo'. rewrite !preamble_length. reflexivity. Qed.

Lemma no_index_bytes : forall prod compr, text_ok prod -> bytes_ok (no_index prod compr).
Proof.
  intros prod compr [SP LP]. assert (TB : forall l, forallb (fun b => (0 <=? b) && (b <? 256)) l = true -> bytes_ok l).
  { intros l H. rewrite forallb_forall in H. apply Forall_forall. intros b IB. specialize (H b IB). unfold byte_ok. lia. }
  unfold no_index, file_head, enc_head, enc_header, new_head. cbn [h_compr h_sysid h_prod].
  repeat (apply Forall_app; split); try (apply TB; vm_compute; reflexivity); try apply enc_word_ok; try apply enc_int_ok; try apply enc_dbl_ok.
  constructor; [unfold byte_ok; pose proof (zlen_nonneg prod); lia|]. eapply Forall_impl; [|exact SP]. intros c. unfold char_ok, byte_ok. lia.
Qed.

Lemma no_index_never : forall prod compr F rd name mode r st', text_ok prod -> fits (no_index prod compr) F -> bytes_ok F -> g_mode rd = f_not_open -> name <> [] -> disk_get (e_disk (g_env rd)) name = Some F ->
  exec z (gdxOpenReadEx name mode) rd = Done (r, st') -> r_code r <> 1.
Proof.
  intros prod compr F rd name mode r st' TP (a & b & FE) BF M NE D H RC.
  destruct (C48_opened z F rd name mode r st' M NE D BF H RC) as (bo & id & vb & ver & cb & comp & sysid & prod' & mb & pos & m & rest & EF & _ & IV & _ & CC & SP & IM & _). clear - FE EF IV CC SP IM.
  rewrite EF in FE. clear EF. unfold no_index, file_head, enc_head, enc_header, new_head in FE. cbn [h_compr h_sysid h_prod] in FE. rewrite <- !app_assoc in FE.
  destruct (app_inv_len _ _ _ _ FE (preamble_len bo (z_host z))) as [PE FE1]. clear FE. apply preamble_inj in PE. subst bo. change (enc_byte gdxHeaderNr) with [123] in FE1. cbn [app] in FE1. apply (f_equal (@tl Z)) in FE1. cbn [tl] in FE1.
  rewrite <- !app_assoc in FE1. apply enc_str_inj in FE1. destruct FE1 as [_ FE1]. destruct IV as [LV IV]. destruct (app_inv_len _ _ _ _ FE1) as [-> FE2]; [rewrite LV; symmetry; apply enc_int_length|]. clear FE1.
  assert (V7 : forall bo, signed 32 (le_val (swp (bo_i bo) (enc_int bo GDX_VERSION))) = 7) by (intros [? [] ?]; reflexivity). rewrite V7 in IV. clear V7. subst ver. change (7 <=? 5) with false in CC. cbv iota in CC. destruct CC as [LC _].
  destruct (app_inv_len _ _ _ _ FE2) as [_ FE3]; [rewrite LC; symmetry; apply enc_int_length|]. clear FE2. apply enc_str_inj in FE3. destruct FE3 as [_ FE4].
  destruct SP as (n & s & -> & LS). cbn [app] in FE4. change (enc_str prod) with (zlen prod :: prod) in FE4. cbn [app] in FE4.
  assert (n = zlen prod) by (apply (f_equal (hd 0)) in FE4; exact FE4). subst n. apply (f_equal (@tl Z)) in FE4. cbn [tl] in FE4.
  destruct (app_inv_len _ _ _ _ FE4) as [_ FE5]; [rewrite LS; unfold zlen; apply Nat2Z.id|]. destruct IM as [LM IM]. destruct (app_inv_len mb [0; 0; 0; 0] _ _ FE5 LM) as [-> _]. clear - IM. destruct (z_host z) as [a [] c]; vm_compute in IM; discriminate IM.
Qed.

Lemma session_text : forall name prod compr cs rs st, writes_new z name prod compr cs rs st -> text_ok prod.
Proof. intros name prod compr cs rs st W. destruct (session_fine _ _ _ _ _ _ W) as (_ & _ & L). destruct W as (_ & _ & _ & _ & _ & SP & _). split; assumption. Qed.

Lemma head_short : forall prod compr, zlen prod <= 255 -> (length (file_head prod compr) < BUFSZ)%nat.
Proof.
  intros prod compr L. unfold file_head, enc_head, enc_header, new_head. cbn [h_compr h_sysid h_prod]. rewrite !app_length, !enc_int_length. change (length (enc_str prod)) with (S (length prod)).
  rewrite preamble_length. change (length (enc_byte gdxHeaderNr)) with 1%nat. change (length (enc_str gdxHeaderId)) with 8%nat. pose proof BUFSZ_val. unfold zlen in L.
  match goal with |- context [length (enc_str auditLine)] => let n := eval vm_compute in (length (enc_str auditLine)) in change (length (enc_str auditLine)) with n end. lia.
Qed.
Lemma has_head : forall prod compr, has (no_index prod compr) (file_head prod compr ++ index_room).
Proof. intros prod compr. exists (repeat 0 76). exact (no_index_base prod compr). Qed.

(** *** The end of a session *)

(** Completing the file ends with three operations: the index is written. *)
Lemma finalize_log : forall T first n st st', fine_at z T first n (g_fil st) -> zlen T <= n -> finalize z st = Done st' ->
  exists new ix rs s, f_start (g_fil st') = [] /\ f_strm (g_fil st') = Some s /\ aruns z (rev (f_ops (g_fil st'))) (as_open []) = Some (rs, s) /\
    f_ops (g_fil st') = OWrite ix :: OSetComp false :: OSetPos (f_mip (g_fil st)) :: new ++ first /\ Forall (safe_op T) new /\ length ix = 52%nat /\ f_name (g_fil st') = f_name (g_fil st).
Proof.
  intros T first n st st' F L H. unfold finalize in H. cbv zeta in H. destruct (negb _); [discriminate|]. remember (f_mip (g_fil st)) as mip eqn:EM. destruct F as [F EN].
  remember (f_nwp (g_fil st)) as nwp eqn:EW. remember (f_compout (g_fil st)) as co eqn:EC. remember (g_dic st) as d eqn:ED. remember (f_name (g_fil st)) as nm eqn:ENM.
  assert (F0 : fine_at z T first nwp (g_fil st) /\ f_name (g_fil st) = nm) by (split; [split; [exact F|symmetry; exact EW]|symmetry; exact ENM]). rewrite <- EN in L. clear F EN EM EW EC ED ENM.
  assert (KW : forall bs s s', fine_at z T first nwp (g_fil s) /\ f_name (g_fil s) = nm -> s_write bs s = Done s' -> fine_at z T first nwp (g_fil s') /\ f_name (g_fil s') = nm).
  { intros bs s s' [Q1 Q2] E. pose proof (write_fine z T first nwp bs s Q1) as X. rewrite E in X. split; [exact X|]. apply s_write_inv in E. destruct E as (? & ? & _ & _ & ->). exact Q2. }
  assert (KC : forall c s s', fine_at z T first nwp (g_fil s) /\ f_name (g_fil s) = nm -> s_setcomp z c s = Done s' -> fine_at z T first nwp (g_fil s') /\ f_name (g_fil s') = nm).
  { intros c s s' [Q1 Q2] E. pose proof (setcomp_fine z T first nwp c s Q1) as X. rewrite E in X. split; [exact X|]. apply s_setcomp_inv in E. destruct E as (? & _ & ->). exact Q2. }
  assert (KG : forall s p s', fine_at z T first nwp (g_fil s) /\ f_name (g_fil s) = nm -> s_getpos z s = Done (p, s') -> fine_at z T first nwp (g_fil s') /\ f_name (g_fil s') = nm).
  { intros s p s' [Q1 Q2] E. pose proof (getpos_fine z T first nwp s Q1) as X. rewrite E in X. split; [exact X|]. apply s_getpos_inv in E. destruct E as (? & ? & _ & _ & ->). exact Q2. }
  assert (KP : forall s s', fine_at z T first nwp (g_fil s) /\ f_name (g_fil s) = nm -> s_setpos z nwp s = Done s' -> fine_at z T first nwp (g_fil s') /\ f_name (g_fil s') = nm).
  { intros s s' [Q1 Q2] E. pose proof (setpos_fine z T first nwp nwp s Q1 L) as X. rewrite E in X. split; [exact X|]. apply s_setpos_inv in E. destruct E as (? & _ & _ & ->). exact Q2. }
  Local Ltac nextop H F0 KW KC KG KP :=
    obind_inv H; try (match type of H with context [let '(_, _) := ?x in _] => destruct x end);
    match goal with E : _ = Done _ |- _ => first [apply (KW _ _ _ F0) in E | apply (KC _ _ _ F0) in E | apply (KG _ _ _ F0) in E | apply (KP _ _ F0) in E]; clear F0; rename E into F0 end.
  do 14 nextop H F0 KW KC KG KP. nextop H F0 KW KC KG KP.
  clear KW KC KG KP. obind_inv H. apply s_setpos_inv in E. destruct E as (s1 & S1 & P1 & ->). obind_inv H. apply s_setcomp_inv in E. destruct E as (s2 & S2 & ->). apply s_write_inv in H. destruct H as (s3 & s4 & S3 & A & ->).
  destruct F0 as [((F1 & (rs & s & F2 & F3) & new & F4 & F5) & F6) F7]. assert (s = s1) by congruence. subst s.
  destruct (logged_step z _ _ _ (OSetPos mip) RUnit (as_setpos z mip s1) F3) as [rs1 R1]; [cbn [astep]; destruct (Z.ltb_spec mip 0); [lia|reflexivity]|].
  cbn [s_log upd_fil upd g_fil set_g_fil f_strm set_f_strm set_f_ops] in S2. assert (s2 = as_setpos z mip s1) by congruence. subst s2.
  destruct (logged_step z _ _ _ (OSetComp false) RUnit (as_setcomp z false (as_setpos z mip s1)) R1 eq_refl) as [rs2 R2].
  cbn [s_log upd_fil upd g_fil set_g_fil f_strm set_f_strm set_f_ops] in S3. assert (s3 = as_setcomp z false (as_setpos z mip s1)) by congruence. subst s3.
  match type of A with as_write ?ix _ = _ => destruct (logged_step z _ _ _ (OWrite ix) RUnit s4 R2) as [rs3 R3]; [cbn [astep]; rewrite A; reflexivity|]; exists new, ix, rs3, s4 end.
  split; [exact F1|]. split; [reflexivity|]. split; [exact R3|]. split; [cbn; rewrite F4; reflexivity|]. split; [exact F5|]. split; [apply enc_major_length|exact F7].
Qed.

(** *** The file a session leaves *)

Lemma session_ops : forall name prod compr cs rs st, writes_new z name prod compr cs rs st ->
  exists os, rev (f_ops (g_fil st)) = OWrite (file_head prod compr) :: OGetPos :: OWrite index_room :: OGetPos :: os /\ Forall (safe_op (no_index prod compr)) os /\ f_start (g_fil st) = [].
Proof.
  intros name prod compr cs rs st W. destruct (session_fine _ _ _ _ _ _ W) as ((F0 & _ & new & E & F) & _ & _). exists (rev new).
  split; [rewrite E, rev_app_distr; reflexivity|]. split; [apply Forall_rev; exact F|exact F0].
Qed.
Lemma session_fits : forall name prod compr cs rs st F, writes_new z name prod compr cs rs st -> stops [] (disk_writes z st) F -> fits (no_index prod compr) F.
Proof.
  intros name prod compr cs rs st F W S. destruct (session_ops _ _ _ _ _ _ W) as (os & E & SO & ST). unfold disk_writes in S. rewrite E, ST in S.
  eapply unfinished_sound; [apply has_head| |exact SO|exact S]. apply head_short. exact (proj2 (session_text _ _ _ _ _ _ W)).
Qed.

Lemma close_data : forall st, mode_in (g_mode st) [fw_raw_data; fw_map_data; fw_str_data] = true ->
  forall r st1, close z st = Done (r, st1) -> exists st2, exec z gdxDataWriteDone st = Done (ret 1, st2) /\ g_mode st2 = fw_init /\ close z st2 = Done (r, st1).
Proof.
  intros st M r st1 H. unfold close in H. rewrite M in H. obind_inv H. rename x into st2. exists st2. split.
  - cbn [exec]. unfold data_write_done, checked, okay. assert (M2 : mode_in (g_mode st) [fw_raw_data; fw_map_data; fw_str_data; fw_dom_raw; fw_dom_map; fw_dom_str] = true) by (clear - M; destruct (g_mode st); solve [discriminate M|reflexivity]). rewrite M2, E. reflexivity.
  - pose proof (write_done_mode _ _ E) as Q. split; [exact Q|]. unfold close. rewrite Q. change (mode_in fw_init [fw_raw_data; fw_map_data; fw_str_data]) with false. cbn [obind]. rewrite Q in *. exact H.
Qed.

Lemma writes_done : forall name prod compr cs rs st st2, writes_new z name prod compr cs rs st -> exec z gdxDataWriteDone st = Done (ret 1, st2) ->
  writes_new z name prod compr (cs ++ [gdxDataWriteDone]) (rs ++ [ret 1]) st2.
Proof.
  intros name prod compr cs rs st st2 (st0 & sta & ra & O & RC & SP & FC & R) H. exists st0, sta, ra. split; [exact O|]. split; [exact RC|]. split; [exact SP|].
  split; [apply Forall_app; split; [exact FC|constructor; [split; [reflexivity|exact I]|constructor]]|].
  eapply run_app; [exact R|]. cbn [run]. rewrite H. reflexivity.
Qed.

Lemma release_log : forall st, disk_writes z (snd (release z st)) = disk_writes z st.
Proof. intros st. unfold release, disk_writes. destruct (f_strm (g_fil st)); reflexivity. Qed.

Lemma session_mip : forall name prod compr cs rs st, writes_new z name prod compr cs rs st -> g_mode st = fw_init -> f_mip (g_fil st) = zlen (file_head prod compr).
Proof.
  intros name prod compr cs rs st W MO. destruct (writes_new_jinv _ _ _ _ _ _ _ W) as ([(t & G & [CO _] & _)|(_ & D)] & _ & _).
  - exact (co_mip _ _ _ _ _ CO).
  - exfalso. destruct D as [D _]. rewrite MO in D. unfold data_modes in D. cbn in D. intuition discriminate.
Qed.

Lemma closing_init : forall name prod compr cs rs st r st1, writes_new z name prod compr cs rs st -> g_mode st = fw_init -> close z st = Done (r, st1) ->
  exists ws ix, disk_writes z st1 = ws ++ [(zlen (file_head prod compr), ix)] /\ length ix = 52%nat /\
    (forall F, stops [] ws F -> fits (no_index prod compr) F) /\ disk_get (e_disk (g_env st1)) name = Some (replay [] (disk_writes z st1)).
Proof.
  intros name prod compr cs rs st r st1 W MO H. pose proof (session_fine _ _ _ _ _ _ W) as (F & L & LP). pose proof (session_mip _ _ _ _ _ _ W MO) as MP.
  destruct (writes_new_jinv _ _ _ _ _ _ _ W) as (_ & NM & _). unfold close in H. rewrite MO in H.
  change (mode_in fw_init [fw_raw_data; fw_map_data; fw_str_data]) with false in H. cbn [obind] in H. rewrite MO in H. change (mode_in fw_init [fw_init]) with true in H. cbv iota in H.
  obind_inv H. rename x into st2. destruct (finalize_log (no_index prod compr) (first_ops prod compr) (f_nwp (g_fil st)) st st2) as (new & ix & rr & s & S0 & FS & AR & EO & SO & LX & N2); [split; [exact F|reflexivity]|exact L|exact E|].
  destruct (index_last z (no_index prod compr) (file_head prod compr) index_room (rev new) (zlen (file_head prod compr)) ix) as (ws & PH & ST).
  - apply has_head.
  - apply head_short. exact LP.
  - apply Forall_rev. exact SO.
  - unfold no_index. rewrite zlen_app. pose proof (zlen_nonneg (file_head prod compr)). change (zlen [0;0;0;0]) with 4. lia.
  - intros ->. discriminate LX.
  - rewrite LX. pose proof BUFSZ_val. lia.
  - assert (RO : rev (f_ops (g_fil st2)) = OWrite (file_head prod compr) :: OGetPos :: OWrite index_room :: OGetPos :: rev new ++ [OSetPos (zlen (file_head prod compr)); OSetComp false; OWrite ix]).
    { rewrite EO, MP. cbn [rev]. rewrite rev_app_distr. cbn [first_ops rev app]. rewrite <- !app_assoc. reflexivity. }
    assert (DW : disk_writes z st1 = ws ++ [(zlen (file_head prod compr), ix)]).
    { apply (f_equal (fun o : outcome (resp * gst) => match o with Done (_, s) => s | _ => st1 end)) in H. cbn in H. rewrite <- H. change (disk_writes z (snd (release z st2)) = ws ++ [(zlen (file_head prod compr), ix)]). rewrite release_log. unfold disk_writes. rewrite S0, RO. exact PH. }
    exists ws, ix. split; [exact DW|]. split; [exact LX|]. split; [exact ST|].
    assert (D1 : disk_writes z st1 = disk_writes z st2) by (rewrite <- (release_log st2); destruct (release z st2) as [r2 s2]; injection H as <- <-; reflexivity).
    rewrite D1. unfold disk_writes. rewrite S0, physical_replay, (physical_final z _ _ _ _ AR). unfold release in H. rewrite FS in H. injection H as <- <-.
    change (disk_get (disk_put (e_disk (g_env st2)) (f_name (g_fil st2)) (as_final z s)) name = Some (as_final z s)). rewrite N2, NM. apply disk_get_put.
Qed.

(** ** C25: a file whose writing was interrupted *)

(** No object opens a file with these contents, to read or to append. *)
Definition never_opens (F : list Z) : Prop :=
  forall name mode rd c r st', disk_get (e_disk (g_env rd)) name = Some F -> c = gdxOpenReadEx name mode \/ c = gdxOpenAppend name -> exec z c rd = Done (r, st') -> r_code r <> 1.
(** Opening it is answered with the error "the index of the file is missing". *)
Definition says_incomplete (F : list Z) : Prop :=
  forall name mode rd, g_mode rd = f_not_open -> name <> [] -> disk_get (e_disk (g_env rd)) name = Some F -> answers z rd (gdxOpenReadEx name mode) (ret_i 0 [ERR_OPEN_BOI]).

(** A file that was created with these arguments and not completed: never opened; reported
    as incomplete as soon as its header and the place of the index marker are there. *)
Definition unfinished (prod : str) (compr : Z) (F : list Z) : Prop :=
  never_opens F /\ (zlen (enc_head (z_host z) (new_head prod compr)) + 4 <= zlen F -> says_incomplete F).

Lemma fits_unfinished : forall prod compr F, text_ok prod -> fits (no_index prod compr) F -> unfinished prod compr F.
Proof.
  intros prod compr F TP FT. assert (LN : zlen (no_index prod compr) = zlen (enc_head (z_host z) (new_head prod compr)) + 4) by (unfold no_index; rewrite zlen_app; reflexivity).
  assert (SI : zlen (enc_head (z_host z) (new_head prod compr)) + 4 <= zlen F -> says_incomplete F).
  { intros L name mode rd M NE D. rewrite <- LN in L. exact (no_index_refused prod compr F rd name mode TP (fits_has _ F FT L) M NE D). }
  split; [|exact SI].
  assert (RD : forall name mode rd r st', disk_get (e_disk (g_env rd)) name = Some F -> open_read z name mode rd = Done (r, st') -> r_code r <> 1).
  { intros name mode rd r st' D H. destruct (Z_le_gt_dec (zlen (enc_head (z_host z) (new_head prod compr)) + 4) (zlen F)) as [L|L].
    - destruct (mode_in (g_mode rd) [f_not_open]) eqn:MI.
      + assert (M : g_mode rd = f_not_open) by (clear - MI; destruct (g_mode rd); solve [reflexivity|discriminate MI]). destruct name as [|ch name].
        * unfold open_read in H. rewrite MI in H. cbn [negb] in H. injection H as <- _. discriminate.
        * destruct (SI L (ch :: name) mode rd M ltac:(discriminate) D) as [st2 X]. cbn [exec] in X. rewrite H in X. injection X as -> _. discriminate.
      + unfold open_read in H. rewrite MI in H. cbn [negb] in H. injection H as <- _. discriminate.
    - assert (BF : bytes_ok F). { destruct FT as (a & b & E). pose proof (no_index_bytes prod compr TP) as B. apply (f_equal (firstn (length F))) in E. rewrite !firstn_app in E.
        rewrite firstn_all, Nat.sub_diag in E. cbn [firstn] in E. rewrite app_nil_r in E. replace (length F - length (no_index prod compr))%nat with O in E by (unfold zlen in *; lia). cbn [firstn] in E. rewrite app_nil_r in E.
        rewrite E. rewrite <- (firstn_skipn (length F) (no_index prod compr)) in B. apply Forall_app in B. exact (proj1 B). }
      destruct (mode_in (g_mode rd) [f_not_open]) eqn:MI.
      + assert (M : g_mode rd = f_not_open) by (clear - MI; destruct (g_mode rd); solve [reflexivity|discriminate MI]). destruct name as [|ch name].
        * unfold open_read in H. rewrite MI in H. cbn [negb] in H. injection H as <- _. discriminate.
        * exact (no_index_never prod compr F rd (ch :: name) mode r st' TP FT BF M ltac:(discriminate) D H).
      + unfold open_read in H. rewrite MI in H. cbn [negb] in H. injection H as <- _. discriminate. }
  intros name mode rd c r st' D [-> | ->] H; cbn [exec] in H; [eapply RD; eassumption|]. unfold open_append in H. obind_inv H. destruct x as [r1 s1].
  pose proof (RD name 0 rd r1 s1 D E) as NR. destruct (Z.eqb_spec (r_code r1) 1) as [Q|Q]; [contradiction|]. cbn [negb] in H. injection H as <- _. exact NR.
Qed.

(** The process stops while the file is being written. *)
Theorem C25_interrupted : forall name prod compr cs rs st F, writes_new z name prod compr cs rs st -> stops [] (disk_writes z st) F -> unfinished prod compr F.
Proof. intros name prod compr cs rs st F W S. apply fits_unfinished; [eapply session_text; exact W|eapply session_fits; eassumption]. Qed.

(** gdxClose completes the file with one last write: the index, 52 bytes behind the header.
    The process stops before that write. *)
Theorem C25_closing : forall name prod compr cs rs st r st1, writes_new z name prod compr cs rs st -> mode_in (g_mode st) [fw_init; fw_raw_data; fw_map_data; fw_str_data] = true ->
  exec z gdxClose st = Done (r, st1) ->
  exists ws ix, disk_writes z st1 = ws ++ [(zlen (enc_head (z_host z) (new_head prod compr)), ix)] /\ length ix = 52%nat /\
    forall F, stops [] ws F -> unfinished prod compr F.
Proof.
  intros name prod compr cs rs st r st1 W M H. cbn [exec] in H. pose proof (session_text _ _ _ _ _ _ W) as TP. destruct (mode_in (g_mode st) [fw_raw_data; fw_map_data; fw_str_data]) eqn:MD.
  - destruct (close_data st MD r st1 H) as (st2 & E & M2 & H2). destruct (closing_init _ _ _ _ _ _ _ _ (writes_done _ _ _ _ _ _ _ W E) M2 H2) as (ws & ix & H3 & H4 & H5 & _).
    exists ws, ix. split; [exact H3|]. split; [exact H4|]. intros F S. apply fits_unfinished; [exact TP|exact (H5 F S)].
  - assert (MO : g_mode st = fw_init) by (clear - M MD; destruct (g_mode st); solve [reflexivity|discriminate M|discriminate MD]).
    destruct (closing_init _ _ _ _ _ _ _ _ W MO H) as (ws & ix & H3 & H4 & H5 & _). exists ws, ix. split; [exact H3|]. split; [exact H4|]. intros F S. apply fits_unfinished; [exact TP|exact (H5 F S)].
Qed.

(** In the other states gdxClose does not complete the file, whatever was written. *)
Theorem C25_abandoned : forall name prod compr cs rs st r st1 F, writes_new z name prod compr cs rs st -> mode_in (g_mode st) [fw_init; fw_raw_data; fw_map_data; fw_str_data] = false ->
  exec z gdxClose st = Done (r, st1) -> stops [] (disk_writes z st1) F -> unfinished prod compr F.
Proof.
  intros name prod compr cs rs st r st1 F W M H S. apply (C25_interrupted name prod compr cs rs st F W). cbn [exec] in H. unfold close in H.
  assert (M1 : mode_in (g_mode st) [fw_raw_data; fw_map_data; fw_str_data] = false) by (clear - M; destruct (g_mode st); solve [reflexivity|discriminate M]).
  assert (M2 : mode_in (g_mode st) [fw_init] = false) by (clear - M; destruct (g_mode st); solve [reflexivity|discriminate M]).
  rewrite M1 in H. cbn [obind] in H. rewrite M2 in H. cbn [obind] in H. rewrite <- (release_log st). destruct (release z st) as [r2 s2]. injection H as <- <-. exact S.
Qed.

(** An object that is freed without gdxClose does not complete its file either. *)
Theorem C25_freed : forall name prod compr cs rs st r st1 F, writes_new z name prod compr cs rs st -> exec z gdxFree st = Done (r, st1) ->
  stops [] (disk_writes z st1) F -> unfinished prod compr F.
Proof.
  intros name prod compr cs rs st r st1 F W H S. apply (C25_interrupted name prod compr cs rs st F W). cbn [exec] in H. unfold destroy in H.
  destruct (mode_in (g_mode st) [f_not_open]); [injection H as _ <-; exact S|]. unfold close in H. cbn [g_mode set_g_mode] in H.
  change (mode_in fr_init [fw_raw_data; fw_map_data; fw_str_data]) with false in H. cbn [obind] in H.
  change (mode_in (g_mode (set_g_mode fr_init st)) [fw_init]) with false in H. cbn [obind] in H.
  assert (D : disk_writes z st1 = disk_writes z (set_g_mode fr_init st)) by (rewrite <- (release_log (set_g_mode fr_init st)); destruct (release z (set_g_mode fr_init st)) as [r2 s2]; injection H as <- <-; reflexivity).
  rewrite D in S. exact S.
Qed.
(** The file it leaves on the disk is the one these writes make. *)
Theorem C25_freed_file : forall name prod compr cs rs st r st1, writes_new z name prod compr cs rs st -> exec z gdxFree st = Done (r, st1) ->
  exists F, disk_get (e_disk (g_env st1)) name = Some F /\ unfinished prod compr F.
Proof.
  intros name prod compr cs rs st r st1 W H. destruct (session_fine _ _ _ _ _ _ W) as ((F0 & (rr & s & FS & AR) & _) & _ & _). destruct (writes_new_jinv _ _ _ _ _ _ _ W) as (J & NM & _).
  exists (replay [] (disk_writes z st)). split; [|apply (C25_interrupted name prod compr cs rs st _ W); apply stops_all].
  cbn [exec] in H. unfold destroy in H. destruct (mode_in (g_mode st) [f_not_open]) eqn:MI.
  - exfalso. apply jinv_mode in J. rewrite (mode_in_disjoint [f_not_open] _ eq_refl J) in MI. discriminate MI.
  - unfold close in H. cbn [g_mode set_g_mode] in H.
    change (mode_in fr_init [fw_raw_data; fw_map_data; fw_str_data]) with false in H. cbn [obind] in H.
    change (mode_in (g_mode (set_g_mode fr_init st)) [fw_init]) with false in H. cbn [obind] in H.
    unfold disk_writes. rewrite F0, physical_replay, (physical_final z _ _ _ _ AR). unfold release in H. cbn [g_fil set_g_mode] in H. rewrite FS in H. injection H as <- <-.
    change (disk_get (disk_put (e_disk (g_env st)) (f_name (g_fil st)) (as_final z s)) name = Some (as_final z s)). rewrite NM. apply disk_get_put.
Qed.

(** These are all the writes: the file on the disk in the end is what they make of an empty
    file. *)
Theorem C25_all_writes : forall name prod compr cs rs st r st1, writes_new z name prod compr cs rs st -> exec z gdxClose st = Done (r, st1) ->
  disk_get (e_disk (g_env st1)) name = Some (replay [] (disk_writes z st1)).
Proof.
  intros name prod compr cs rs st r st1 W H. cbn [exec] in H. destruct (mode_in (g_mode st) [fw_raw_data; fw_map_data; fw_str_data]) eqn:MD.
  - destruct (close_data st MD r st1 H) as (st2 & E & M2 & H2). destruct (closing_init _ _ _ _ _ _ _ _ (writes_done _ _ _ _ _ _ _ W E) M2 H2) as (ws & ix & _ & _ & _ & H6). exact H6.
  - destruct (mode_in (g_mode st) [fw_init]) eqn:MI.
    + assert (MO : g_mode st = fw_init) by (clear - MI; destruct (g_mode st); solve [reflexivity|discriminate MI]). destruct (closing_init _ _ _ _ _ _ _ _ W MO H) as (ws & ix & _ & _ & _ & H6). exact H6.
    + destruct (session_fine _ _ _ _ _ _ W) as ((F0 & (rr & s & FS & AR) & _) & _ & _). destruct (writes_new_jinv _ _ _ _ _ _ _ W) as (_ & NM & _).
      unfold close in H. rewrite MD in H. cbn [obind] in H. rewrite MI in H. cbn [obind] in H.
      assert (D1 : disk_writes z st1 = disk_writes z st) by (rewrite <- (release_log st); destruct (release z st) as [r2 s2]; injection H as <- <-; reflexivity).
      rewrite D1. unfold disk_writes. rewrite F0, physical_replay, (physical_final z _ _ _ _ AR). unfold release in H. rewrite FS in H. injection H as <- <-.
      change (disk_get (disk_put (e_disk (g_env st)) (f_name (g_fil st)) (as_final z s)) name = Some (as_final z s)). rewrite NM. apply disk_get_put.
Qed.

End S.

(** *** Examples *)

(** The session of Cases: interrupted in its last write before the index. *)
Example C25_interrupted_case : exists F, stops [] (disk_writes rle_zlib case_written) F /\ zlen (enc_head native (new_head (s2z "a test") 1)) + 4 <= zlen F /\ unfinished rle_zlib (s2z "a test") 1 F.
Proof.
  assert (S : stops [] (disk_writes rle_zlib case_written) (replay [] (disk_writes rle_zlib case_written))) by apply stops_all. exists (replay [] (disk_writes rle_zlib case_written)). split; [exact S|].
  split; [vm_compute; discriminate|]. exact (C25_interrupted rle_zlib _ _ _ _ _ _ _ case_new S).
Qed.
Example C25_closing_case : exists r st1, exec rle_zlib gdxClose case_written = Done (r, st1) /\ mode_in (g_mode case_written) [fw_init; fw_raw_data; fw_map_data; fw_str_data] = true /\
  (3 <= length (disk_writes rle_zlib st1))%nat.
Proof. exists (ret 0), case_closed. split; [vm_compute; reflexivity|]. split; [vm_compute; reflexivity|]. vm_compute. lia. Qed.

(** The index itself is not protected: when its write is torn, 44 of its 52 bytes being on
    the disk, the file opens without an error, but the domains are lost. *)
Definition torn_file (k : nat) : list Z :=
  let ws := disk_writes rle_zlib case_closed in
  match rev ws with (p, ix) :: l => pwrite (replay [] (rev l)) p (firstn k ix) | [] => [] end.
Lemma stops_last : forall ws f p bs k, stops f (ws ++ [(p, bs)]) (pwrite (replay f ws) p (firstn k bs)).
Proof. induction ws as [|[q cs] ws IH]; intros f p bs k; cbn [app]; [apply stops_torn|]. apply stops_later. exact (IH (pwrite f q cs) p bs k). Qed.
Theorem C25_torn_index_refuted : exists name prod compr cs rs st r st1 F rd, writes_new rle_zlib name prod compr cs rs st /\ exec rle_zlib gdxClose st = Done (r, st1) /\ stops [] (disk_writes rle_zlib st1) F /\
  disk_get (e_disk (g_env rd)) name = Some F /\ (exists rd2, exec rle_zlib (gdxOpenReadEx name 0) rd = Done (ret_i 1 [0], rd2) /\ answers rle_zlib rd2 (gdxSymbolGetDomainX 6) (ret_s 1 [s2z "*"; s2z "*"])) /\
  (exists rd2, exec rle_zlib (gdxOpenReadEx name 0) st1 = Done (ret_i 1 [0], rd2) /\ answers rle_zlib rd2 (gdxSymbolGetDomainX 6) (ret_s 2 [s2z "I"; s2z "*"])).
Proof.
  exists (s2z "f.gdx"), (s2z "a test"), 1, case_calls, case_answers, case_written, (ret 0), case_closed, (torn_file 44), (upd_env (set_e_disk [(s2z "f.gdx", torn_file 44)]) case_closed).
  split; [exact case_new|]. split; [vm_compute; reflexivity|]. split.
  { assert (E : exists ws p ix, disk_writes rle_zlib case_closed = ws ++ [(p, ix)]).
    { destruct (exists_last (l := disk_writes rle_zlib case_closed)) as (ws & [p ix] & E); [vm_compute; discriminate|]. eauto. }
    destruct E as (ws & p & ix & E). unfold torn_file. rewrite E. cbv zeta. rewrite rev_app_distr. cbn [rev app]. rewrite rev_involutive. apply stops_last. }
  split; [vm_compute; reflexivity|]. split; eexists; (split; [vm_compute; reflexivity|eexists; vm_compute; reflexivity]).
Qed.

Example C25_freed_case : exists r st1, exec rle_zlib gdxFree case_written = Done (r, st1) /\ exists F, disk_get (e_disk (g_env st1)) (s2z "f.gdx") = Some F /\ unfinished rle_zlib (s2z "a test") 1 F /\
  zlen (enc_head native (new_head (s2z "a test") 1)) + 4 <= zlen F.
Proof.
  assert (E : exec rle_zlib gdxFree case_written = Done (ret 0, state_of (exec rle_zlib gdxFree case_written))) by (vm_compute; reflexivity).
  exists (ret 0), (state_of (exec rle_zlib gdxFree case_written)). split; [exact E|]. destruct (C25_freed_file rle_zlib _ _ _ _ _ _ _ _ case_new E) as (F & D & U). exists F. split; [exact D|]. split; [exact U|].
  assert (X : match disk_get (e_disk (g_env (state_of (exec rle_zlib gdxFree case_written)))) (s2z "f.gdx") with Some F => zlen (enc_head native (new_head (s2z "a test") 1)) + 4 <=? zlen F | None => false end = true) by (vm_compute; reflexivity).
  rewrite D in X. apply Z.leb_le in X. exact X.
Qed.

Print Assumptions C25_interrupted.
Print Assumptions C25_closing.
Print Assumptions C25_abandoned.
Print Assumptions C25_all_writes.
Print Assumptions C25_torn_index_refuted.
Print Assumptions C25_freed.
Print Assumptions C25_freed_file.
