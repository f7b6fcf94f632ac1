(** * PropDisk: which files change (C50), and what an object keeps after it is closed (C51) *)

From Coq Require Import String.
From Verif Require Import Base Prim Values Records LinkedData StrHash IntMap Strings AStream BufStream State
  FileImage ApiCore ApiFile ApiWrite ApiRead Api FileFacts BlockFacts StreamFacts OpenFacts DicInv WriteInv WriteSteps Journal WriteCalls WriteTrace
  Footprint SessInv FileFlow Sessions Vocab Reopen ReadFacts Cases PropCrash.
Open Scope Z_scope.
Open Scope list_scope.

(** ** Specification *)

(** The call asks for the file [name] to be created or to be appended to. *)
Definition writes_to (name : str) (c : call) : Prop :=
  match c with gdxOpenWriteEx n _ _ | gdxOpenAppend n => n = name | _ => False end.
(** What the file [name] contains, if there is one. *)
Definition content (st : gst) (name : str) : option (list Z) := disk_get (e_disk (g_env st)) name.
(** The object has no file. *)
Definition no_file (st : gst) : Prop := f_strm (g_fil st) = None.

(** ** The invariant *)

Lemma disk_put_other : forall d a b c, a <> b -> disk_get (disk_put d a c) b = disk_get d b.
Proof.
  intros d a b c N. assert (NE : str_eqb a b = false) by (destruct (str_eqb a b) eqn:E; [apply str_eqb_spec in E; contradiction|reflexivity]).
  induction d as [|[n c0] d IH]; cbn [disk_put disk_get]; [rewrite NE; reflexivity|].
  destruct (str_eqb n a) eqn:E; cbn [disk_get].
  - apply str_eqb_spec in E. subst n. rewrite NE. reflexivity.
  - rewrite IH. reflexivity.
Qed.

Section D.
Context (z : zlib) (nm : str) (F0 : option (list Z)).

Definition safe (st : gst) : Prop :=
  content st nm = F0 /\
  (f_name (g_fil st) <> nm \/ f_strm (g_fil st) = None \/
   (in_read st /\ exists s F, f_strm (g_fil st) = Some s /\ F0 = Some F /\ rd_ok F s)).

Lemma safe_err : forall n st, safe st -> safe (set_error n st).
Proof. intros n st H. unfold set_error. destruct (n =? 0); exact H. Qed.
Lemma safe_wrk : forall f st, safe st -> safe (upd_wrk f st).
Proof. intros f st H. exact H. Qed.
Lemma safe_list : forall f st, safe st -> safe (upd_err f st).
Proof. intros f st H. exact H. Qed.

Lemma safe_atom : forall c a b, puts c = false -> safe a -> atom c a b -> safe b.
Proof.
  intros c a b PU [D S] A. destruct A.
  - destruct H as [X|H]; [congruence|]. split; [exact D|]. destruct S as [S|[S|[_ S]]]; [auto|auto|]. right. right. split; [left; exact H|exact S].
  - congruence.
  - split; [exact D|]. destruct S as [S|[S|[Q1 S]]]; [auto|auto|]. right. right. split; [|exact S]. right. split; [exact H0|].
    destruct Q1 as [Q1|[Q1 _]]; destruct (g_mode st) eqn:M; try discriminate H; cbn in Q1; try (intuition discriminate); unfold after_reg; cbn; rewrite M; reflexivity.
  - split; [exact D|]. destruct S as [S|[S|[Q1 S]]]; [auto|auto|]. right. right. split; [|exact S]. left. destruct Q1 as [Q1|[_ Q1]].
    + unfold elem_modes in H. destruct (g_mode st); try discriminate H; cbn in Q1; intuition discriminate.
    + cbn. rewrite Q1. auto.
  - split; [|exact S]. unfold content. cbn. destruct H as [-> _]. exact D.
  - split; [exact D|exact S].
  - destruct H as (s0 & E & [X|H]); [congruence|]. split; [exact D|]. destruct S as [S|[S|(Q1 & s1 & F & E1 & E0 & R)]]; [left; exact S|congruence|].
    right. right. split; [exact Q1|]. exists s, F. split; [reflexivity|]. split; [exact E0|]. apply H. congruence.
  - congruence.
  - split; [exact D|exact S].
  - apply safe_err. split; [exact D|exact S].
  - split; [exact D|exact S].
  - split; [exact D|exact S].
  - split; [exact D|exact S].
  - split; [exact D|exact S].
Qed.
(** Nothing but the file changes, whatever the call. *)
Definition apart (st : gst) : Prop := content st nm = F0 /\ (f_name (g_fil st) <> nm \/ f_strm (g_fil st) = None).
Lemma apart_safe : forall st, apart st -> safe st.
Proof. intros st [D [S|S]]; split; auto. Qed.
Lemma apart_atom : forall c a b, apart a -> atom c a b -> apart b.
Proof.
  intros c a b [D S] A. destruct A; try (split; [exact D|exact S]).
  - split; [|exact S]. unfold content. cbn. destruct H as [-> _]. exact D.
  - destruct H as (s0 & E & _). split; [exact D|]. left. destruct S as [S|S]; [exact S|congruence].
  - unfold set_error. destruct (n =? 0); split; assumption.
Qed.

Lemma safe_session : forall c st r st', session_call c = true -> call_ok c -> safe st -> exec z c st = Done (r, st') -> safe st'.
Proof.
  intros c st r st' SC OK Q E. destruct (puts c) eqn:PU.
  - destruct Q as [D [S|[S|[RM S]]]].
    1: assert (AP : apart st) by (split; [exact D|left; exact S]).
    2: assert (AP : apart st) by (split; [exact D|right; exact S]).
    1,2: apply apart_safe; pose proof (session_ok z apart (fun a H => H) c st (apart_atom c) SC OK AP) as X; rewrite E in X; exact X.
    refine (puts_refused_gen z safe c st r st' safe_err safe_wrk safe_list RM PU SC _ E). split; [exact D|auto].
  - pose proof (session_ok z safe (fun a H => H) c st (fun a b => safe_atom c a b PU) SC OK Q) as X. rewrite E in X. exact X.
Qed.

(** ** Closing *)

Lemma release_safe : forall st, safe st -> safe (snd (release z st)) /\ f_strm (g_fil (snd (release z st))) = None.
Proof.
  intros st [D S]. split; [|unfold release; destruct (f_strm (g_fil st)); reflexivity]. split.
  - unfold release, content. destruct (f_strm (g_fil st)) as [s|] eqn:E; cbn.
    + destruct S as [S|[S|(_ & s1 & F & E1 & E0 & R)]]; [rewrite disk_put_other by exact S; exact D|congruence|].
      assert (s1 = s) by congruence. subst s1. assert (AF : as_final z s = F) by (unfold as_final; rewrite (rd_flush z F s R); apply R). rewrite AF.
      destruct (str_eqb (f_name (g_fil st)) nm) eqn:N.
      * apply str_eqb_spec in N. rewrite N, disk_get_put. symmetry. exact E0.
      * rewrite disk_put_other; [exact D|]. intros X. apply str_eqb_spec in X. congruence.
    + exact D.
  - right. left. unfold release. destruct (f_strm (g_fil st)); reflexivity.
Qed.
Lemma apart_log : forall s o st, f_strm (g_fil st) <> None -> apart st -> apart (s_log s o st).
Proof. intros s o st N [D [S|S]]; [split; [exact D|left; exact S]|contradiction]. Qed.
Ltac aplog := unfold okg, ok; match goal with |- match ?x with _ => _ end => let E := fresh "E" in destruct x as [?|] eqn:E; [|exact Logic.I] end.
Lemma apart_setcomp : forall c st, apart st -> okg apart (s_setcomp z c st).
Proof. intros c st A. unfold s_setcomp. destruct (f_strm (g_fil st)) eqn:E; [|exact Logic.I]. apply apart_log; [congruence|exact A]. Qed.
Lemma apart_setpos : forall p st, apart st -> okg apart (s_setpos z p st).
Proof. intros p st A. unfold s_setpos. destruct (f_strm (g_fil st)) eqn:E; [|exact Logic.I]. destruct (p <? 0); [exact Logic.I|]. apply apart_log; [congruence|exact A]. Qed.
Lemma apart_write : forall b st, apart st -> okg apart (s_write b st).
Proof. intros b st A. unfold s_write. destruct (f_strm (g_fil st)) eqn:E; [|exact Logic.I]. destruct (as_write b a); [|exact Logic.I]. apply apart_log; [congruence|exact A]. Qed.
Lemma apart_getpos : forall st, apart st -> ok apart (s_getpos z st).
Proof. intros st A. unfold s_getpos. destruct (f_strm (g_fil st)) eqn:E; [|exact Logic.I]. destruct (as_getpos z a) as [[? ?]|]; [|exact Logic.I]. apply apart_log; [congruence|exact A]. Qed.
Ltac ap1 := first
  [ apply okg_bindg; [first [apply apart_setcomp|apply apart_setpos|apply apart_write]; assumption|intros ? _ ?]
  | apply okg_bind; [apply apart_getpos; assumption|intros ? ? _ ?]
  | apply apart_write; assumption ].
Lemma finalize_apart : forall st, apart st -> okg apart (finalize z st).
Proof. intros st A. unfold finalize. destruct (negb _); [exact Logic.I|]. repeat ap1. Qed.
Lemma write_done_apart : forall st, apart st -> okg apart (write_done z st).
Proof. intros st A. exact (write_done_ok gdxDataWriteDone z apart (apart_atom gdxDataWriteDone) st eq_refl A). Qed.
Lemma close_safe : forall st r st', safe st -> close z st = Done (r, st') -> safe st' /\ no_file st'.
Proof.
  intros st r st' Q H. unfold close in H. destruct Q as [D S].
  assert (X : okg safe (do st <- (if mode_in (g_mode st) [fw_raw_data; fw_map_data; fw_str_data] then write_done z st else Done st) ;;
                       (if mode_in (g_mode st) [fw_init] then finalize z st else Done st))).
  { assert (Y : (apart st) \/ (in_read st /\ safe st)) by (unfold apart, safe; tauto). destruct Y as [Y|[RM Y]].
    - assert (Z0 : okg apart (if mode_in (g_mode st) [fw_raw_data; fw_map_data; fw_str_data] then write_done z st else Done st))
        by (destruct (mode_in _ _); [apply write_done_apart; exact Y|exact Y]).
      match goal with |- okg safe (obind ?e _) => destruct e as [s1|]; [|exact Logic.I] end. cbn [obind okg] in *.
      destruct (mode_in (g_mode s1) [fw_init]); [|apply apart_safe; exact Z0]. pose proof (finalize_apart _ Z0) as W. destruct (finalize z s1); [apply apart_safe; exact W|exact Logic.I].
    - rewrite (read_not_write st [fw_raw_data; fw_map_data; fw_str_data] RM) by (intros m I; cbn in *; intuition (subst; discriminate)). cbn [obind].
      rewrite (read_not_write st [fw_init] RM) by (intros m I; cbn in *; intuition (subst; discriminate)). exact Y. }
  match type of H with obind ?e _ = _ => destruct e as [s1|]; [|discriminate] end. cbn [obind] in H, X.
  match type of H with obind ?e _ = _ => destruct e as [s2|]; [|discriminate] end. cbn [obind okg] in H, X.
  destruct (release_safe s2 X) as [R1 R2]. assert (E2 : release z s2 = (r, st')) by congruence. rewrite E2 in R1, R2. split; assumption.
Qed.

(** ** Opening *)

(** The stream reads the file [name], whose content is [F]. *)
Definition reader (name : str) (F : list Z) (st : gst) : Prop :=
  content st nm = F0 /\ f_name (g_fil st) = name /\ exists s, f_strm (g_fil st) = Some s /\ rd_ok F s.
(** What opening a file to read leaves. *)
Definition opened_or_not (name : str) (F : list Z) (st : gst) : Prop :=
  content st nm = F0 /\ f_name (g_fil st) = name /\ (f_strm (g_fil st) = None \/ (g_mode st = fr_init /\ exists s, f_strm (g_fil st) = Some s /\ rd_ok F s)).

Section R.
Context (name : str) (F : list Z).
Notation R := (reader name F).
Notation O := (opened_or_not name F).

Lemma rd_setcomp : forall c st, R st -> okg R (s_setcomp z c st).
Proof.
  intros c st (D & N & s & E & Q). unfold s_setcomp. rewrite E. split; [exact D|]. split; [exact N|]. eexists. split; [reflexivity|].
  unfold as_setcomp. rewrite (rd_flush z F s Q). destruct Q as [Q1 Q2]. destruct (as_comp s || c); destruct (Bool.eqb (as_comp s) c); split; cbn; auto.
  all: destruct (as_mode s) as [[|]| | |]; auto.
Qed.
Lemma rd_setpos : forall p st, R st -> okg R (s_setpos z p st).
Proof.
  intros p st (D & N & s & E & Q). unfold s_setpos. rewrite E. destruct (p <? 0); [exact Logic.I|]. split; [exact D|]. split; [exact N|]. eexists. split; [reflexivity|].
  unfold as_setpos. rewrite (rd_flush z F s Q). destruct Q as [Q1 Q2]. split; [exact Q1|exact Logic.I].
Qed.
Lemma rd_getpos : forall st, R st -> ok R (s_getpos z st).
Proof.
  intros st (D & N & s & E & Q). unfold s_getpos. rewrite E. unfold as_getpos. pose proof Q as [Q1 Q2].
  destruct (as_mode s) eqn:M; [|destruct Q2| |exact Logic.I].
  - split; [exact D|]. split; [exact N|]. exists s. split; [reflexivity|exact Q].
  - destruct (as_comp s); [exact Logic.I|]. split; [exact D|]. split; [exact N|]. exists s. split; [reflexivity|exact Q].
Qed.
Lemma rd_parse : forall {A} (p : parser A) st, R st -> ok R (s_parse z p st).
Proof.
  intros A p st (D & N & s & E & Q). unfold s_parse. rewrite E. cbv zeta. rewrite (rd_flush z F s Q). destruct (as_view z s) as [v|]; [|exact Logic.I].
  destruct (p v) as [[a v']|]; [|exact Logic.I]. split; [exact D|]. split; [exact N|]. eexists. split; [reflexivity|]. split; [apply Q|exact Logic.I].
Qed.
Lemma rd_fail : forall st, R st -> ok O (file_error st).
Proof. intros st (D & N & _). split; [exact D|]. split; [exact N|left; reflexivity]. Qed.
Lemma rd_error : forall n st, R st -> R (set_error n st).
Proof. intros n st H. unfold set_error. destruct (n =? 0); exact H. Qed.
Lemma rd_check : forall b e st k, R st -> (R st -> ok O (k st)) -> ok O (check_or b e st k).
Proof. intros b e st k H K. unfold check_or. destruct b; [apply K; exact H|]. apply rd_fail, rd_error, H. Qed.
Lemma okp : forall {A B} (x : outcome (A * gst)) (k : A * gst -> outcome (B * gst)), ok R x -> (forall a s, R s -> ok O (k (a, s))) -> ok O (obind x k).
Proof. intros A B [[a s]|] k H K; cbn in *; auto. Qed.
Lemma okm : forall {B} (x : outcome gst) (k : gst -> outcome (B * gst)), okg R x -> (forall s, R s -> ok O (k s)) -> ok O (obind x k).
Proof. intros B [s|] k H K; cbn in *; auto. Qed.

Ltac r1 := first
  [ apply okm; [first [apply rd_setcomp|apply rd_setpos]; assumption|intros ? ?]
  | apply okp; [first [apply rd_parse|apply rd_getpos]; assumption|intros ? ? ?]
  | apply rd_check; [assumption|intros _] ].

Lemma symbs_rd : forall m st k, R st -> (forall s, R s -> ok O (k s)) -> ok O (open_symbs z m st k).
Proof.
  intros m st k H K. unfold open_symbs. do 4 r1. r1. cbv zeta.
  match goal with |- ok O (obind (s_parse z p_str ?X) _) => assert (RX : R X) by (destruct a0; assumption); revert RX; generalize X; intros Y RY end.
  r1. apply rd_check; [assumption|apply K].
Qed.
Lemma uels_rd : forall m st k, R st -> (forall s, R s -> ok O (k s)) -> ok O (open_uels z m st k).
Proof.
  intros m st k H K. unfold open_uels. do 2 r1. cbv zeta.
  match goal with |- ok O (obind (s_parse z p_str ?X) _) => assert (RX : R X) by assumption; revert RX; generalize X; intros Y RY end.
  do 4 r1.
  match goal with |- ok O (obind (s_parse z p_str ?X) _) => assert (RX : R X) by assumption; revert RX; generalize X; intros Y2 RY2 end.
  r1. apply rd_check; [assumption|apply K].
Qed.
Lemma texts_rd : forall m st k, R st -> (forall s, R s -> ok O (k s)) -> ok O (open_texts z m st k).
Proof.
  intros m st k H K. unfold open_texts. cbv zeta. do 2 r1.
  match goal with |- ok O (obind (s_parse z p_str ?X) _) => assert (RX : R X) by assumption; revert RX; generalize X; intros Y RY end.
  do 3 r1. destruct (load_texts _ _ _ _ _) as [[tx mt]|]; [|exact Logic.I]. cbn [obind].
  match goal with |- ok O (obind (s_parse z p_str ?X) _) => assert (RX : R X) by assumption; revert RX; generalize X; intros Y2 RY2 end.
  r1. apply rd_check; [assumption|apply K; assumption].
Qed.
Lemma acros_rd : forall m st k, R st -> (forall s, R s -> ok O (k s)) -> ok O (open_acros z m st k).
Proof.
  intros m st k H K. unfold open_acros. cbv zeta. destruct (7 <=? _); [|apply K; exact H]. do 5 r1.
  match goal with |- ok O (obind (s_parse z p_str ?X) _) => assert (RX : R X) by assumption; revert RX; generalize X; intros Y2 RY2 end.
  r1. apply rd_check; [assumption|apply K].
Qed.
Lemma doms_rd : forall m st k, R st -> (forall s, R s -> ok O (k s)) -> ok O (open_doms z m st k).
Proof.
  intros m st k H K. unfold open_doms. cbv zeta.
  match goal with |- context [upd_dic ?g st] => assert (RX : R (upd_dic g st)) by assumption; revert RX; generalize (upd_dic g st); clear H st; intros st H end.
  destruct (_ && _); [|apply K; exact H]. do 5 r1.
  match goal with |- ok O (obind (s_parse z p_str ?X) _) => assert (RX : R X) by assumption; revert RX; generalize X; intros Y2 RY2 end.
  r1. apply rd_check; [assumption|intros _]. r1.
  match goal with |- ok O (obind (s_parse z p_str ?X) _) => assert (RX : R X) by assumption; revert RX; generalize X; intros Y3 RY3 end.
  r1. apply rd_check; [assumption|apply K].
Qed.
Lemma rd_fil : forall g st, (forall f, f_name (g f) = f_name f /\ f_strm (g f) = f_strm f) -> R st -> R (upd_fil g st).
Proof. intros g st G (D & N & S). destruct (G (g_fil st)) as [G1 G2]. split; [exact D|]. cbn. rewrite G1, G2. auto. Qed.
Lemma header_rd : forall st k, R st -> (forall s, R s -> ok O (k s)) -> ok O (open_header z st k).
Proof.
  intros st k H K. unfold open_header. r1. destruct a as [bo|]; [|apply rd_fail; assumption].
  match goal with |- context [upd_fil ?g ?x] => assert (RX : R (upd_fil g x)) by (apply rd_fil; [intros f; split; reflexivity|assumption]); revert RX; generalize (upd_fil g x); intros Y1 RY1 end.
  do 2 r1. do 2 r1. r1.
  match goal with |- context [upd_fil (set_f_ver ?v) ?x] => assert (RX : R (upd_fil (set_f_ver v) x)) by (apply rd_fil; [intros f; split; reflexivity|assumption]); revert RX; generalize (upd_fil (set_f_ver v) x); intros Y2 RY2 end.
  r1. apply okp; [destruct (_ <=? 5); [exact RY2|apply rd_parse; exact RY2]|intros ? ? ?]. do 2 r1.
  match goal with |- context [upd_fil ?g ?x] => assert (RX : R (upd_fil g x)) by (apply rd_fil; [intros f; split; reflexivity|assumption]); revert RX; generalize (upd_fil g x); intros Y3 RY3 end.
  r1.
  match goal with |- context [upd_fil ?g ?x] => assert (RX : R (upd_fil g x)) by (apply rd_fil; [intros f; split; reflexivity|assumption]); revert RX; generalize (upd_fil g x); intros Y4 RY4 end.
  r1. apply rd_check; [assumption|apply K].
Qed.
Lemma body_rd : forall rm st, R st ->
  ok O (open_header z st (fun st =>
            do (m, st) <- s_parse z (p_major (f_bo (g_fil st)) (f_ver (g_fil st)) (f_nwp (g_fil st))) st ;;
            let st := upd_fil (set_f_nwp (mj_nwp m)) st in
            open_symbs z m st (fun st =>
            open_uels z m st (fun st =>
            let rest st :=
              open_acros z m st (fun st =>
              open_doms z m st (fun st =>
              let st := reset_special (upd_err (set_r_last 0) st) in
              let st := upd_fil (set_f_stat 1) (set_g_mode fr_init st) in
              do st <- s_setcomp z false st ;;
              Done (ret_i 1 [0], st))) in
            if Z.rem rm 2 =? 0 then open_texts z m st rest else rest st)))).
Proof.
  intros rm st H. apply header_rd; [exact H|]. clear st H. intros st H. r1. cbv zeta.
  match goal with |- context [upd_fil ?g ?x] => assert (RX : R (upd_fil g x)) by (apply rd_fil; [intros f; split; reflexivity|assumption]); revert RX; generalize (upd_fil g x); intros Y1 RY1 end.
  apply symbs_rd; [assumption|]. intros s2 R2. apply uels_rd; [assumption|]. intros s3 R3.
  assert (REST : forall s, R s -> ok O (open_acros z a s (fun st => open_doms z a st (fun st =>
     do st <- s_setcomp z false (upd_fil (set_f_stat 1) (set_g_mode fr_init (reset_special (upd_err (set_r_last 0) st)))) ;; Done (ret_i 1 [0], st))))).
  { intros s9 RS. apply acros_rd; [assumption|]. intros s4 R4. apply doms_rd; [assumption|]. intros s5 R5.
    set (Y := upd_fil _ _). assert (RY : R Y) by exact R5. assert (MY : g_mode Y = fr_init) by reflexivity. clearbody Y.
    pose proof (rd_setcomp false Y RY) as X. unfold s_setcomp in *. destruct (f_strm (g_fil Y)); [|exact Logic.I]. cbn [obind okg ok] in *.
    destruct X as (X1 & X2 & X3). split; [exact X1|]. split; [exact X2|]. right. split; [exact MY|exact X3]. }
  destruct (Z.rem rm 2 =? 0); [apply texts_rd; [assumption|exact REST]|apply REST; exact R3].
Qed.
End R.

Lemma open_stream_reader : forall name F st, content st nm = F0 -> reader name F (open_stream name F st).
Proof. intros name F st D. split; [exact D|]. split; [reflexivity|]. exists (as_open F). split; [reflexivity|]. split; [reflexivity|exact Logic.I]. Qed.

Lemma open_read_safe : forall name rm st r st', safe st -> open_read z name rm st = Done (r, st') ->
  safe st' /\ ((r_code r = 0 /\ f_name (g_fil st') = f_name (g_fil st)) \/ f_name (g_fil st') = name).
Proof.
  intros name rm st r st' Q H. unfold open_read in H. destruct (negb _) eqn:M; [injection H as <- <-; auto|]. cbv zeta in H.
  destruct name as [|ch name'] eqn:EN.
  - unfold file_no_good, file_error in H. injection H as <- <-. split; [|left; split; reflexivity]. split; [apply Q|right; left; reflexivity].
  - rewrite <- EN in *. clear EN.
    match type of H with match disk_get ?d name with _ => _ end = _ => change d with (e_disk (g_env st)) in H end.
    destruct (disk_get (e_disk (g_env st)) name) as [F|] eqn:DG.
    2:{ unfold file_no_good, file_error in H. injection H as <- <-. split; [|left; split; reflexivity]. split; [apply Q|right; left; reflexivity]. }
    match type of H with context [open_stream name F ?x] => pose proof (body_rd name F rm _ (open_stream_reader name F x (proj1 Q))) as X end.
    assert (X' : ok (opened_or_not name F) (Done (r, st'))) by (rewrite <- H; exact X). clear X. destruct X' as (D & N & X). split; [|right; exact N]. split; [exact D|].
    destruct X as [X|[MR X]]; [auto|]. destruct (str_eqb name nm) eqn:E.
    + apply str_eqb_spec in E. destruct X as (s & E1 & RO). right. right. split; [left; rewrite MR; cbn; auto|]. exists s, F. split; [exact E1|]. split; [|exact RO].
      destruct Q as [D0 _]. rewrite <- D0. unfold content. rewrite <- E. exact DG.
    + left. rewrite N. intros Y. apply str_eqb_spec in Y. congruence.
Qed.

Lemma close_apart : forall st r st', apart st -> close z st = Done (r, st') -> safe st' /\ no_file st'.
Proof. intros st r st' A. apply close_safe. apply apart_safe. exact A. Qed.
Lemma open_append_safe : forall name st r st', name <> nm -> safe st -> open_append z name st = Done (r, st') -> safe st'.
Proof.
  intros name st r st' N Q H. unfold open_append in H. destruct (open_read z name 0 st) as [[r1 s1]|] eqn:E; [|discriminate]. cbn [obind] in H.
  destruct (open_read_safe _ _ _ _ _ Q E) as [Q1 NM]. destruct (Z.eqb_spec (r_code r1) 1) as [C|C]; cbn [negb] in H; [|injection H as _ <-; exact Q1].
  assert (A1 : apart s1). { split; [apply Q1|]. destruct NM as [[X _]|NM]; [congruence|left; congruence]. }
  destruct (_ <? 7).
  - destruct (close z _) as [[r2 s2]|] eqn:E2; [|discriminate]. cbn [obind] in H. injection H as _ <-. apply (fun A => proj1 (close_apart _ _ _ A E2)).
    unfold set_error. destruct (_ =? 0); exact A1.
  - match type of H with obind (s_setpos z ?p ?x) _ = _ => assert (A2 : apart x) by exact A1; pose proof (apart_setpos p x A2) as A3; destruct (s_setpos z p x) as [s2|]; [|discriminate] end.
    cbn [obind okg] in *. injection H as _ <-. apply apart_safe. exact A3.
Qed.
Lemma open_write_safe : forall name prod compr st r st', name <> nm -> safe st -> open_write z name prod compr st = Done (r, st') -> safe st'.
Proof.
  intros name prod compr st r st' N Q H. unfold open_write in H. destruct (negb _); [injection H as _ <-; exact Q|].
  destruct name as [|ch name'] eqn:EN; [injection H as _ <-; exact Q|]. rewrite <- EN in *. clear EN.
  assert (X : ok apart (create_file z name prod compr st)).
  { unfold create_file. destruct (write_string prod) as [p|]; [|exact Logic.I]. cbn [obind].
    assert (A : apart (fresh_session z name prod (compr mod 2) st)) by (split; [apply Q|left; exact N]).
    revert A. generalize (fresh_session z name prod (compr mod 2) st). intros s0 A.
    apply ok_bindg; [apply apart_write; exact A|]. intros s1 _ A1. apply ok_bind; [apply apart_getpos; exact A1|]. intros p1 s2 _ A2.
    apply ok_bindg; [apply apart_write; exact A2|]. intros s3 _ A3. apply ok_bind; [apply apart_getpos; exact A3|]. intros p2 s4 _ A4. exact A4. }
  rewrite H in X. apply apart_safe. exact X.
Qed.

Theorem safe_call : forall c st r st', call_ok c -> ~ writes_to nm c -> safe st -> exec z c st = Done (r, st') -> safe st'.
Proof.
  intros c st r st' OK NW Q E. destruct (session_call c) eqn:SC; [eapply safe_session; eassumption|].
  destruct c; try discriminate SC; cbn [exec] in E; clear SC.
  - eapply open_write_safe; [|exact Q|exact E]. exact NW.
  - eapply (open_read_safe name readmode); [exact Q|exact E].
  - eapply open_append_safe; [|exact Q|exact E]. exact NW.
  - apply (close_safe _ _ _ Q E).
  - unfold destroy in E. destruct (mode_in (g_mode st) [f_not_open]); [injection E as _ <-; exact Q|].
    refine (proj1 (close_safe _ _ _ _ E)). destruct Q as [D S]. split; [exact D|]. destruct S as [S|[S|[_ S]]]; [left; exact S|right; left; exact S|].
    right. right. split; [left; cbn; auto|exact S].
Qed.
Theorem safe_calls : forall cs st rs st', Forall call_ok cs -> Forall (fun c => ~ writes_to nm c) cs -> safe st -> run z cs st = Done (rs, st') -> safe st'.
Proof.
  induction cs as [|c cs IH]; intros st rs st' OK NW Q R; cbn [run] in R; [injection R as _ <-; exact Q|].
  destruct (exec z c st) as [[r s]|] eqn:E; [|discriminate]. cbn [obind] in R. destruct (run z cs s) as [[rs' s']|] eqn:R2; [|discriminate]. cbn [obind] in R. injection R as _ <-.
  eapply IH; [exact (Forall_inv_tail OK)|exact (Forall_inv_tail NW)| |exact R2]. exact (safe_call _ _ _ _ (Forall_inv OK) (Forall_inv NW) Q E).
Qed.
End D.

(** ** C50 *)

(** Whatever is done with an object: a file whose name was not given to gdxOpenWriteEx or
    gdxOpenAppend keeps its content. *)
Theorem C50_other_files_stay : forall z cs rs st st' name, no_file st -> run z cs st = Done (rs, st') -> Forall call_ok cs ->
  Forall (fun c => ~ writes_to name c) cs -> content st' name = content st name.
Proof.
  intros z cs rs st st' name NF R OK NW. refine (proj1 (safe_calls z name (content st name) cs st rs st' OK NW _ R)). split; [reflexivity|right; left; exact NF].
Qed.
(** In particular reading changes no file, and no file comes or goes. *)
Theorem C50_reading_changes_nothing : forall z cs rs st st', no_file st -> run z cs st = Done (rs, st') -> Forall call_ok cs ->
  Forall (fun c => forall name, ~ writes_to name c) cs -> forall name, content st' name = content st name.
Proof.
  intros z cs rs st st' NF R OK NW name. apply (C50_other_files_stay z cs rs); [exact NF|exact R|exact OK|].
  eapply Forall_impl; [|exact NW]. intros c H. apply H.
Qed.

(** While a file is being written another one is left alone, and reading it back changes
    neither. *)
Definition two_files : gst := upd_env (set_e_disk [(s2z "other", [1; 2; 3])]) (new_object []).
Definition disk_calls : list call := gdxOpenWriteEx (s2z "f.gdx") (s2z "a test") 1 :: case_calls ++ [gdxClose; gdxOpenReadEx (s2z "f.gdx") 0; gdxClose].
Example C50_case : exists rs st', run rle_zlib disk_calls two_files = Done (rs, st') /\ content two_files (s2z "f.gdx") = None /\ (exists F, content st' (s2z "f.gdx") = Some F) /\ content st' (s2z "other") = Some [1; 2; 3].
Proof.
  assert (E : exists rs st', run rle_zlib disk_calls two_files = Done (rs, st') /\ exists F, content st' (s2z "f.gdx") = Some F) by (do 2 eexists; split; [vm_compute; reflexivity|eexists; vm_compute; reflexivity]).
  destruct E as (rs & st' & E & F & EF). exists rs, st'. split; [exact E|]. split; [reflexivity|]. split; [exists F; exact EF|].
  refine (C50_other_files_stay rle_zlib disk_calls rs two_files st' (s2z "other") eq_refl E _ _).
  - unfold disk_calls, case_calls. cbn [app]. repeat (constructor; [apply call_okb_ok; vm_compute; reflexivity|]). constructor.
  - unfold disk_calls, case_calls. cbn [app]. repeat (constructor; [first [exact (fun x => x)|cbn [writes_to]; vm_compute; discriminate]|]). constructor.
Qed.
Example C50_case_reading : exists rs st', run rle_zlib [gdxOpenReadEx (s2z "f.gdx") 0; gdxSystemInfo; gdxDataReadRawStart 1; gdxDataReadRaw; gdxClose] case_closed = Done (rs, st') /\
  nth 3 (List.map r_code rs) 0 = 1 /\ no_file case_closed.
Proof. do 2 eexists. split; [vm_compute; reflexivity|]. split; vm_compute; reflexivity. Qed.

(** ** C51 *)

(** gdxClose while the records of a symbol are written: the symbol is completed first; the
    file and the object are as if gdxDataWriteDone had been called before. *)
Theorem C51_close_completes_the_symbol : forall z st r st1, In (g_mode st) [fw_raw_data; fw_map_data; fw_str_data] ->
  (exec z gdxClose st = Done (r, st1) <-> exists st2, exec z gdxDataWriteDone st = Done (ret 1, st2) /\ exec z gdxClose st2 = Done (r, st1)).
Proof.
  intros z st r st1 M. assert (MB : mode_in (g_mode st) [fw_raw_data; fw_map_data; fw_str_data] = true) by (cbn [In] in M; destruct M as [<-|[<-|[<-|[]]]]; reflexivity).
  assert (MD : mode_in (g_mode st) [fw_raw_data; fw_map_data; fw_str_data; fw_dom_raw; fw_dom_map; fw_dom_str] = true) by (cbn [In] in M; destruct M as [<-|[<-|[<-|[]]]]; reflexivity).
  cbn [exec]. split.
  - intros H. destruct (close_data z st MB r st1 H) as (st2 & A & _ & B). exists st2. split; [exact A|exact B].
  - intros (st2 & A & B). unfold data_write_done, checked, okay in A. rewrite MD in A. destruct (write_done z st) as [s2|] eqn:E; [|discriminate]. cbn [obind] in A. injection A as A. subst s2.
    unfold close. rewrite MB, E. cbn [obind]. pose proof (write_done_mode _ _ _ E) as Q. unfold close in B. rewrite Q in B. change (mode_in fw_init [fw_raw_data; fw_map_data; fw_str_data]) with false in B. cbn [obind] in B. rewrite Q in *. exact B.
Qed.
(** After gdxClose, whatever went before, the object has no file and is not open: it refuses
    to be closed again and can be opened. *)
Theorem C51_closed : forall z st r st1, exec z gdxClose st = Done (r, st1) -> no_file st1 /\ g_mode st1 = f_not_open /\
  exec z gdxClose st1 = Done (ret 1, st1).
Proof.
  intros z st r st1 H. cbn [exec] in *. unfold close in H.
  destruct (if mode_in (g_mode st) [fw_raw_data; fw_map_data; fw_str_data] then write_done z st else Done st) as [s1|]; [|discriminate]. cbn [obind] in H.
  destruct (if mode_in (g_mode s1) [fw_init] then finalize z s1 else Done s1) as [s2|]; [|discriminate]. cbn [obind] in H. assert (E : release z s2 = (r, st1)) by congruence. clear H.
  unfold release in E. injection E as _ <-. destruct s2 as [mo af en fi di er wr sl]. split; [reflexivity|]. split; [reflexivity|].
  destruct fi as [? [?|] ? ? ? ? ? ? ? ? ? ? ? ?], wr; destruct w_cur; reflexivity.
Qed.
Example C51_case : exists rs st st1 st2, run rle_zlib [gdxDataWriteRawStart (s2z "new") (s2z "") 1 dt_par 0; gdxDataWriteRaw [1] [dbl_1]] case_written = Done (rs, st) /\
  In (g_mode st) [fw_raw_data; fw_map_data; fw_str_data] /\ exec rle_zlib gdxClose st = Done (ret 0, st1) /\
  exec rle_zlib (gdxOpenReadEx (s2z "f.gdx") 0) st1 = Done (ret_i 1 [0], st2) /\ answers rle_zlib st2 (gdxFindSymbol (s2z "new")) (ret_i 1 [8]).
Proof.
  do 4 eexists. split; [vm_compute; reflexivity|]. split; [vm_compute; auto|]. split; [vm_compute; reflexivity|]. split; [vm_compute; reflexivity|]. eexists. vm_compute. reflexivity.
Qed.

(** Before the first record of the symbol this is not so: the file cannot be opened again. *)
Theorem C51_before_the_first_record_refuted : exists z st s1 st1 s2 st2, in_writing z case_calls st /\ exec z (gdxDataWriteRawStart (s2z "new") (s2z "") 1 dt_par 0) st = Done (ret 1, s1) /\
  exec z gdxClose s1 = Done (ret 0, st1) /\ answers z st1 (gdxOpenReadEx (s2z "f.gdx") 0) (ret_i 0 [ERR_OPEN_BOI]) /\
  exec z gdxDataWriteDone s1 = Done (ret 1, s2) /\ exec z gdxClose s2 = Done (ret 0, st2) /\ answers z st2 (gdxOpenReadEx (s2z "f.gdx") 0) (ret_i 1 [0]).
Proof.
  exists rle_zlib, case_written. do 4 eexists. split; [exact case_writing|]. split; [vm_compute; reflexivity|]. split; [vm_compute; reflexivity|]. split; [eexists; vm_compute; reflexivity|].
  split; [vm_compute; reflexivity|]. split; [vm_compute; reflexivity|]. eexists. vm_compute. reflexivity.
Qed.

Print Assumptions C50_other_files_stay.
Print Assumptions C50_reading_changes_nothing.
Print Assumptions C51_close_completes_the_symbol.
Print Assumptions C51_closed.
Print Assumptions C51_before_the_first_record_refuted.
