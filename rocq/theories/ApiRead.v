(** * ApiRead: the calls that read records and look things up

    src/gxfile.cpp, the functions cited below.  Callbacks are represented by the list of
    their invocations ([r_calls]); a callback that asks to stop is given by the number of
    times it returns a non-zero value before it returns zero. *)

From Coq Require Import String.
From Verif Require Import Base Prim Values Records LinkedData StrHash IntMap Strings AStream BufStream State FileImage ApiCore ApiWrite.
Open Scope Z_scope.
Open Scope list_scope.

Definition unmapped : list Z := repeat (-2) MAX_DIM.
Definition strict : list Z := repeat 0 MAX_DIM.

(** 58-59 (BADUEL_PREFIX, BADStr_PREFIX). *)
Definition bad_uel (n : Z) : str := s2z "?L__" ++ int_str n.
Definition bad_text (n : Z) : str := s2z "?Str__" ++ int_str n.

(** The indices of the current record. *)
Definition cur_keys (st : gst) : list Z := firstn (w_dim (g_wrk st)) (w_last (g_wrk st)).

(** Insertion sort by the first component, stable. *)
Fixpoint insert_by (e : Z * Z) (l : list (Z * Z)) : list (Z * Z) :=
  match l with
  | [] => [e]
  | x :: r => if fst e <? fst x then e :: l else x :: insert_by e r
  end.
Definition sort_by (l : list (Z * Z)) : list (Z * Z) := fold_left (fun acc e => insert_by e acc) l [].

Section Z.
Context (z : zlib).

(** ** Starting a read: 2214-2219, 2788-2793, 1840-1845, 3099-3103 *)
Definition read_start (synr : Z) (doms : list Z) (m : gmode) (st : gst) : outcome (resp * gst) :=
  do (n, st) <- prepare_symbol_read z synr doms m st ;;
  Done (ret_i (b2z (0 <=? n)) [n], st).
Definition read_raw_start (synr : Z) := read_start synr unmapped fr_raw_data.
Definition read_str_start (synr : Z) := read_start synr unmapped fr_str_data.
Definition read_map_start (synr : Z) := read_start synr strict fr_map_data.
Definition read_filtered_start (synr : Z) (acts : list Z) := read_start synr acts fr_map_data.

(** ** Reading one record *)

(** 2193-2212 (gdxDataReadRaw). *)
Definition read_raw (st : gst) : outcome (resp * gst) :=
  checked [fr_raw_data] st (
  do (r, st) <- do_read z st ;;
  match r with
  | None => do (_, st) <- data_read_done st ;; Done (ret 0, st)
  | Some (af, vals) => Done (ret_iv 1 (af :: cur_keys st) vals, st)
  end).

(** 1747-1774 (gdxDataReadStr). *)
Definition key_label (d : dic) (k : Z) : str :=
  match uel_text d k with Some s => s | None => bad_uel k end.
Definition read_str (st : gst) : outcome (resp * gst) :=
  checked [fr_str_data] st (
  do (r, st) <- do_read z st ;;
  match r with
  | None => do (_, st) <- data_read_done st ;; Done (ret 0, st)
  | Some (af, vals) => Done (ret_isv 1 [af] (List.map (key_label (g_dic st)) (cur_keys st)) vals, st)
  end).

(** 2940-2954 and 2813-2822: the first position at which the indices differ from those of
    the record before (zero when none does). *)
Fixpoint first_change (keys prev : list Z) (i : Z) : Z :=
  match keys, prev with
  | k :: ks, p :: ps => if k =? p then first_change ks ps (i + 1) else i
  | _, _ => 0
  end.
Definition note_keys (keys : list Z) (st : gst) : Z * gst :=
  let n := length keys in
  let p := w_prev (g_wrk st) in
  (first_change keys p 1, upd_wrk (set_w_prev (keys ++ skipn n p)) st).

(** 2843-2893: the indices from dimension [i] on; [buf] is the caller's array. *)
Inductive mapstep :=
| SKeys (buf : list Z) (addnew : bool)
| SFail (buf : list Z) (addnew : bool) (fidim : nat)
| SBad (buf : list Z).
Fixpoint step_keys (d : dic) (acts : list dact) (last : list Z) (i : nat) (buf : list Z) (addnew : bool)
    : outcome mapstep :=
  match acts, last with
  | a :: acts', k :: ks =>
      if (k <? 0) || (k >=? uel_count d + 1) then Done (SBad buf)
      else match a with
           | dm_unmapped => step_keys d acts' ks (S i) (set_nth i k buf) addnew
           | dm_filter f =>
               do v <- user_map d k ;;
               if in_filter f v then step_keys d acts' ks (S i) (set_nth i v buf) addnew
               else Done (SFail buf addnew (S i))
           | dm_strict =>
               do v <- user_map d k ;;
               if 0 <=? v then step_keys d acts' ks (S i) (set_nth i v buf) addnew
               else Done (SFail buf addnew (S i))
           | dm_expand =>
               do v <- user_map d k ;;
               if 0 <=? v then step_keys d acts' ks (S i) (set_nth i v buf) addnew
               else step_keys d acts' ks (S i) (set_nth i (- k) buf) true
           end
  | _, _ => Done (SKeys buf addnew)
  end.

(** 2899-2931: the indices of a rejected record, the offending ones negated; [None]: a
    negative index. *)
Fixpoint reject_keys (d : dic) (acts : list dact) (last : list Z) : outcome (option (list Z)) :=
  match acts, last with
  | a :: acts', k :: ks =>
      if k <? 0 then Done None
      else
        do k' <- (match a with
                  | dm_filter f => do v <- user_map d k ;; Done (if in_filter f v then k else - k)
                  | dm_strict => do v <- user_map d k ;; Done (if v <? 0 then - k else k)
                  | _ => Done k
                  end) ;;
        do r <- reject_keys d acts' ks ;;
        Done (option_map (cons k') r)
  | _, _ => Done (Some last)
  end.

(** 2827-2938: the loop of gdxDataReadMap reading one record after the other until one
    passes.  The result is [None] when the call returns false. *)
Fixpoint map_loop (fuel : nat) (fidim : nat) (buf : list Z) (addnew : bool) (st : gst)
    : outcome (option (list Z * list Z * bool) * gst) :=
  match fuel with
  | O => UB
  | S k =>
      do (r, st) <- do_read z st ;;
      match r with
      | None => Done (None, st)
      | Some (af, vals) =>
          let d := g_dic st in
          let af := Nat.min fidim (Z.to_nat af) in
          let last := w_last (g_wrk st) in
          let acts := w_doms (g_wrk st) in
          do m <- (match af with
                   | O => Done (SKeys buf addnew)
                   | S i => step_keys d (skipn i acts) (skipn i last) i buf addnew
                   end) ;;
          match m with
          | SBad _ => Done (None, set_error ERR_BADELEMENTINDEX st)
          | SFail buf addnew fi =>
              do x <- reject_keys d acts last ;;
              match x with
              | None => Done (None, set_error ERR_BADELEMENTINDEX st)
              | Some ks => map_loop k fi buf addnew (add_dom_error ks vals st)
              end
          | SKeys buf addnew => Done (Some (buf, vals, addnew), st)
          end
      end
  end.

(** 2920-2938: numbers for the new labels. *)
Fixpoint number_new (k : nat) (i : nat) (buf : list Z) (added : Z) (d : dic) : outcome (list Z * Z * dic) :=
  match k with
  | O => Done (buf, added, d)
  | S k' =>
      match nth_error buf i with
      | None => UB
      | Some en =>
          if en <? 0 then
            do (v, d) <- new_usr_uel (- en) d ;;
            number_new k' (S i) (firstn i buf ++ v :: replace_all en v (skipn (S i) buf)) (added + 1) d
          else number_new k' (S i) buf added d
      end
  end.

(** 2795-2957 (gdxDataReadMap).  [buf] is the caller's array of indices, which the
    library relies on from one call to the next. *)
Definition read_map (buf : list Z) (st : gst) : outcome (resp * gst) :=
  checked [fr_map_data; fr_mapr_data] st (
  let dim := w_dim (g_wrk st) in
  if (length buf <? dim)%nat then UB else
  let buf := firstn dim buf in
  do sc <- (match w_cur (g_wrk st) with
            | CNull => Done None
            | CDangling => UB
            | CSym n => match get_sym (g_dic st) n with
                        | Some s => Done (if sy_scalar s then Some (n, s) else None)
                        | None => UB
                        end
            end) ;;
  match sc with
  | Some (n, s) =>
      do v <- default_record (e_rtab (g_env st)) s ;;
      Done (ret_iv 1 (0 :: buf) v, upd_dic (upd_sym n (set_sy_scalar false)) st)
  | None =>
      match g_mode st with
      | fr_map_data =>
          match w_rd (g_wrk st) with
          | None => Done (ret 0, st)
          | Some rest =>
              match w_sort (g_wrk st) with
              | None => UB
              | Some _ =>
                  match rest with
                  | [] => Done (ret 0, st)
                  | (keys, vals) :: rest' =>
                      let '(af, st) := note_keys keys (upd_wrk (set_w_rd (Some rest')) st) in
                      Done (ret_iv 1 (af :: keys) vals, st)
                  end
              end
          end
      | _ =>
          do (r, st) <- map_loop (read_fuel z st) dim buf false st ;;
          match r with
          | None => Done (ret 0, st)
          | Some (keys, vals, addnew) =>
              do (keys, added, d) <- (if addnew then number_new dim 0 keys (w_added (g_wrk st)) (g_dic st)
                                      else Done (keys, w_added (g_wrk st), g_dic st)) ;;
              let st := upd_wrk (set_w_added added) (set_g_dic d st) in
              let '(af, st) := note_keys keys st in
              Done (ret_iv 1 (af :: keys) vals, st)
          end
      end
  end).

(** 1776-1812 (gdxDataReadDone). *)
Definition read_done (st : gst) : outcome (resp * gst) :=
  do (ok, st) <- data_read_done st ;; Done (ret (b2z ok), st).

(** ** Reading with a callback *)

(** The records that satisfy [want], as handed to the callback; [limit] is the number of
    invocations that return non-zero before one that returns zero. *)
Fixpoint read_loop (fuel : nat) (want : list Z -> bool) (limit : option nat)
    (acc : list (list Z * list Z * Z)) (st : gst) : outcome (list (list Z * list Z * Z) * gst) :=
  match fuel with
  | O => UB
  | S k =>
      do (r, st) <- do_read z st ;;
      match r with
      | None => Done (acc, st)
      | Some (af, vals) =>
          if want (cur_keys st) then
            let acc := acc ++ [(cur_keys st, vals, af)] in
            match limit with
            | None => read_loop k want None acc st
            | Some O => Done (acc, st)
            | Some (S n) => read_loop k want (Some n) acc st
            end
          else read_loop k want limit acc st
      end
  end.
Definition hide_af (c : list Z * list Z * Z) : list Z * list Z * Z := (fst c, 0).

(** 3670-3680 (gdxDataReadRawFast).  A failed start is not noticed. *)
Definition read_raw_fast (synr : Z) (st : gst) : outcome (resp * gst) :=
  do (n, st) <- prepare_symbol_read z synr unmapped fr_raw_data st ;;
  do (cs, st) <- read_loop (read_fuel z st) (fun _ => true) None [] st ;;
  do (_, st) <- data_read_done st ;;
  Done (mkResp (b2z (0 <=? n)) [n] [] [] (List.map hide_af cs), st).

(** 3682-3708 (gdxDataReadRawFastEx). *)
Definition read_raw_fast_ex (synr : Z) (limit : option nat) (st : gst) : outcome (resp * gst) :=
  do (n, st) <- prepare_symbol_read z synr unmapped fr_raw_data st ;;
  do (cs, st) <- read_loop (read_fuel z st) (fun _ => true) limit [] st ;;
  do (_, st) <- data_read_done st ;;
  Done (mkResp (b2z (0 <=? n)) [n] [] [] cs, st).

(** 3617-3668 (gdxDataReadRawFastFilt). *)
Definition empty_str (s : str) : bool := match s with [] => true | _ => false end.
Fixpoint fits_filter (nrs : list (option Z)) (keys : list Z) : bool :=
  match nrs, keys with
  | Some n :: nrs', k :: ks => (k =? n) && fits_filter nrs' ks
  | None :: nrs', _ :: ks => fits_filter nrs' ks
  | _, _ => true
  end.
Definition filter_nrs (d : dic) (fs : list str) : list (option Z) :=
  List.map (fun s => if empty_str s then None else Some (uel_find d s)) fs.
Definition all_known (nrs : list (option Z)) : bool :=
  forallb (fun o => match o with Some n => 0 <=? n | None => true end) nrs.
Definition read_raw_fast_filt (synr : Z) (fs : list str) (limit : option nat) (st : gst) : outcome (resp * gst) :=
  do (n, st) <- prepare_symbol_read z synr unmapped fr_raw_data st ;;
  do (ok, cs, st) <- (if 0 <=? n then
                        let dim := w_dim (g_wrk st) in
                        if (length fs <? dim)%nat then UB else
                        let nrs := filter_nrs (g_dic st) (firstn dim fs) in
                        if all_known nrs then
                          do (cs, st) <- read_loop (read_fuel z st) (fits_filter nrs) limit [] st ;;
                          Done (true, cs, st)
                        else Done (false, [], st)
                      else Done (false, [], st)) ;;
  do (_, st) <- data_read_done st ;;
  Done (mkResp (b2z ok) [] [] [] (List.map hide_af cs), st).

(** ** Slices *)

(** 3311-3313. *)
Fixpoint mark_keys (keys : list Z) (ms : list imap) : outcome (list imap) :=
  match keys, ms with
  | k :: ks, m :: ms' => do m' <- im_set m k 1 ;; do r <- mark_keys ks ms' ;; Done (m' :: r)
  | _, _ => Done ms
  end.
Fixpoint slice_loop (fuel : nat) (ms : list imap) (st : gst) : outcome (list imap * gst) :=
  match fuel with
  | O => UB
  | S k =>
      do (r, st) <- do_read z st ;;
      match r with
      | None => Done (ms, st)
      | Some _ => do ms <- mark_keys (cur_keys st) ms ;; slice_loop k ms st
      end
  end.

(** 3319-3330: the labels that occur are numbered from zero. *)
Fixpoint compact (k : nat) (n cnt : Z) (m rev : imap) : outcome (imap * imap * Z) :=
  match k with
  | O => Done (m, rev, cnt)
  | S k' => if 0 <=? im_get m n then
              do m <- im_set m n cnt ;;
              do rev <- im_set rev cnt n ;;
              compact k' (n + 1) (cnt + 1) m rev
            else compact k' (n + 1) cnt m rev
  end.
Fixpoint compact_all (ms : list imap) : outcome (list imap * list imap * list Z) :=
  match ms with
  | [] => Done ([], [], [])
  | m :: r => do (m', rv, c) <- compact (Z.to_nat (im_high m + 1)) 0 0 m im_new ;;
              do (ms', rvs, cs) <- compact_all r ;;
              Done (m' :: ms', rv :: rvs, c :: cs)
  end.

(** 3297-3334 (gdxDataReadSliceStart). *)
Definition slice_start (synr : Z) (st : gst) : outcome (resp * gst) :=
  let st := upd set_g_sli g_sli (set_s_synr synr) st in
  do (_, st) <- prepare_symbol_read z synr unmapped fr_raw_data st ;;
  let dim := w_dim (g_wrk st) in
  do (ms, st) <- slice_loop (read_fuel z st) (repeat im_new dim) st ;;
  do (_, st) <- data_read_done st ;;
  do (ms', rvs, cs) <- compact_all ms ;;
  let st := upd set_g_sli g_sli (fun s => set_s_indx (ms' ++ skipn dim (s_indx s))
              (set_s_rev (rvs ++ skipn dim (s_rev s)) s)) st in
  Done (ret_i 1 (cs ++ repeat 0 (MAX_DIM - dim)), set_g_mode fr_slice st).

(** 3336-3381 (gdxDataReadSlice). *)
Fixpoint slice_keys (nrs : list (option Z)) (ms : list imap) (keys : list Z) : list Z :=
  match nrs, ms, keys with
  | Some _ :: nrs', _ :: ms', _ :: ks => slice_keys nrs' ms' ks
  | None :: nrs', m :: ms', k :: ks => im_get m k :: slice_keys nrs' ms' ks
  | _, _, _ => []
  end.
Definition read_slice (fs : list str) (st : gst) : outcome (resp * gst) :=
  checked [fr_slice] st (
  let dim := w_dim (g_wrk st) in
  if (length fs <? dim)%nat then UB else
  let fs := firstn dim fs in
  let nrs := filter_nrs (g_dic st) fs in
  let free := zlen (filter empty_str fs) in
  let st := upd set_g_sli g_sli (fun s => set_s_elems (fs ++ skipn dim (s_elems s)) s) st in
  let st := set_g_mode fr_init st in
  if negb (all_known nrs) then Done (ret_i 0 [free], st)
  else
    do (_, st) <- prepare_symbol_read z (s_synr (g_sli st)) unmapped fr_slice st ;;
    do (cs, st) <- read_loop (read_fuel z st) (fits_filter nrs) None [] st ;;
    Done (mkResp 1 [free] [] []
            (List.map (fun c => (slice_keys nrs (s_indx (g_sli st)) (fst (fst c)), snd (fst c), 0)) cs), st)).

(** 3383-3404 (gdxDataSliceUELS). *)
Fixpoint slice_uels (d : dic) (k : nat) (elems : list str) (rvs : list imap) (keys : list Z) : outcome (list str) :=
  match k, elems, rvs with
  | O, _, _ => Done []
  | S k', e :: es, rv :: rvs' =>
      if negb (empty_str e) then do r <- slice_uels d k' es rvs' keys ;; Done (e :: r)
      else match keys with
           | [] => UB
           | x :: keys' =>
               let n := im_get rv x in
               do s <- (if n <? 0 then Done (s2z "?")
                        else match uel_text d n with Some s => Done s | None => UB end) ;;
               do r <- slice_uels d k' es rvs' keys' ;; Done (s :: r)
           end
  | _, _, _ => UB
  end.
Definition data_slice_uels (keys : list Z) (st : gst) : outcome (resp * gst) :=
  checked [fr_slice] st (
  do ss <- slice_uels (g_dic st) (w_dim (g_wrk st)) (s_elems (g_sli st)) (s_rev (g_sli st)) keys ;;
  Done (ret_s 1 ss, st)).

(** ** Elements of a domain: 3117-3189 (gdxGetDomainElements) *)

Fixpoint dom_loop (fuel : nat) (pos : nat) (f : option filt) (m : imap) (st : gst) : outcome (imap * gst) :=
  match fuel with
  | O => UB
  | S k =>
      do (r, st) <- do_read z st ;;
      match r with
      | None => Done (m, st)
      | Some (_, vals) =>
          let keys := cur_keys st in
          match nth_error keys pos with
          | None => UB
          | Some n =>
              do inside <- (match f with
                            | None => Done true
                            | Some f => do v <- user_map (g_dic st) n ;; Done (in_filter f v)
                            end) ;;
              if inside then do m <- im_set m n 1 ;; dom_loop k pos f m st
              else dom_loop k pos f m (add_dom_error (neg_at pos keys) vals st)
          end
      end
  end.
Definition marked (m : imap) : list Z :=
  filter (fun n => im_get m n =? 1) (List.map Z.of_nat (seq 1 (Z.to_nat (im_high m)))).
Fixpoint number_all (l : list Z) (d : dic) : outcome (list (Z * Z) * dic) :=
  match l with
  | [] => Done ([], d)
  | n :: r => do (v, d) <- new_usr_uel n d ;;
              do (vs, d) <- number_all r d ;;
              Done ((v, n) :: vs, d)
  end.
(** [calls]: a callback was given.  It is invoked with the number in the file and the user
    number, in the order of the user numbers (the sort of datastorage.hpp 436-490 need not
    be stable; a stable one stands for it, which matters only when two labels share a user
    number). *)
Definition get_domain_elements (synr pos filtnr : Z) (calls : bool) (st : gst) : outcome (resp * gst) :=
  let d := g_dic st in
  if negb (d_nn d) then UB else
  match get_sym d synr with
  | None => fail_with ERR_BADSYMBOLINDEX st
  | Some s =>
      let dim := Z.of_nat (sy_dim s) in
      if dim =? 0 then Done (ret 0, st)
      else if negb ((1 <=? pos) && (pos <=? dim)) then fail_with ERR_BADDIMENSION st
      else
        let f := find_filter (d_filts d) filtnr in
        if negb (filtnr =? -1) && match f with Some _ => false | None => true end
        then fail_with ERR_UNKNOWNFILTER st
        else
          let f := if filtnr =? -1 then None else f in
          do (_, st) <- prepare_symbol_read z synr unmapped fr_raw_data st ;;
          do (m, st) <- dom_loop (read_fuel z st) (Z.to_nat (pos - 1)) f im_new st ;;
          do (_, st) <- data_read_done st ;;
          let l := marked m in
          if calls then
            do (vs, d) <- number_all l (g_dic st) ;;
            Done (mkResp 1 [zlen l] [] [] (List.map (fun e => ([snd e; fst e], [], 0)) (sort_by vs)), set_g_dic d st)
          else Done (ret_i 1 [zlen l], st)
  end.

(** ** Widths *)

(** 3487-3520 (gdxSymbIndxMaxLength). *)
Fixpoint max_lens (d : dic) (keys : list Z) (lens : list Z) : list Z :=
  match keys, lens with
  | k :: ks, l :: ls => Z.max l (match uel_text d k with Some s => zlen s | None => 0 end) :: max_lens d ks ls
  | _, _ => lens
  end.
Fixpoint len_loop (fuel : nat) (lens : list Z) (st : gst) : outcome (list Z * gst) :=
  match fuel with
  | O => UB
  | S k =>
      do (r, st) <- do_read z st ;;
      match r with
      | None => Done (lens, st)
      | Some (af, _) =>
          let i := Z.to_nat (af - 1) in
          len_loop k (firstn i lens ++ max_lens (g_dic st) (skipn i (cur_keys st)) (skipn i lens)) st
      end
  end.
Definition symb_indx_max_length (synr : Z) (st : gst) : outcome (resp * gst) :=
  let none := repeat 0 MAX_DIM in
  if negb (mode_in (g_mode st) [fr_init]) then Done (ret_i 0 none, set_error ERR_BADMODE st)
  else if negb (d_nn (g_dic st)) then UB
  else if (synr <? 0) || (synr >? sym_count (g_dic st)) then Done (ret_i 0 none, st)
  else
    do (n, st) <- prepare_symbol_read z synr unmapped fr_raw_data st ;;
    if n <? 0 then Done (ret_i 0 none, st)
    else
      do (lens, st) <- (match w_dim (g_wrk st) with
                        | O => Done (none, st)
                        | _ => len_loop (read_fuel z st) none st
                        end) ;;
      do (_, st) <- data_read_done st ;;
      Done (ret_i (fold_left Z.max lens 0) lens, st).

End Z.

(** 3522-3528 (gdxSymbMaxLength), 3565-3568 with 3892-3895 (gdxUELMaxLength). *)
Definition max_len (l : list str) : Z := fold_left (fun m s => Z.max m (zlen s)) l 0.
Definition symb_max_length (st : gst) : outcome (resp * gst) :=
  if d_nn (g_dic st) then Done (ret (max_len (List.map fst (d_names (g_dic st)))), st) else UB.
Definition uel_max_length (st : gst) : outcome (resp * gst) :=
  if d_un (g_dic st) then Done (ret (max_len (List.map fst (d_uels (g_dic st)))), st) else UB.

(** ** Looking things up *)

Definition in_names (d : dic) (n : Z) : bool := (1 <=? n) && (n <=? sym_count d).

(** 1732-1745 (gdxFindSymbol). *)
Definition find_symbol (name : str) (st : gst) : outcome (resp * gst) :=
  if str_eqb name (s2z "*") then Done (ret_i 1 [0], st)
  else if d_nn (g_dic st) then let n := sym_find (g_dic st) name in Done (ret_i (b2z (1 <=? n)) [n], st)
  else Done (ret 0, st).

(** 1814-1838 (gdxSymbolInfo), 2430-2434 (gdxSymbolDim), 2436-2456 (gdxSymbolInfoX). *)
Definition symbol_info (n : Z) (st : gst) : outcome (resp * gst) :=
  if n =? 0 then Done (ret_is 1 [1; dt_set] [s2z "*"], st)
  else match znth (d_names (g_dic st)) (n - 1) with
       | Some (name, s) => Done (ret_is 1 [Z.of_nat (sy_dim s); sy_type s] [name], st)
       | None => Done (ret_is 0 [-1; dt_set] [[]], st)
       end.
Definition symbol_dim (n : Z) (st : gst) : outcome (resp * gst) :=
  if n =? 0 then Done (ret 1, st)
  else match get_sym (g_dic st) n with
       | Some s => Done (ret (Z.of_nat (sy_dim s)), st)
       | None => Done (ret (-1), st)
       end.
Definition symbol_info_x (n : Z) (st : gst) : outcome (resp * gst) :=
  if n =? 0 then Done (ret_is 1 [d_uelcnt (g_dic st); 0] [s2z "Universe"], st)
  else match get_sym (g_dic st) n with
       | Some s => Done (ret_is 1 [if Nat.eqb (sy_dim s) 0 then 1 else sy_count s; sy_uinfo s] [sy_expl s], st)
       | None => Done (ret_is 0 [0; 0] [[]], st)
       end.

(** 2374-2381 (gdxSymbolGetDomain). *)
Definition symbol_get_domain (n : Z) (st : gst) : outcome (resp * gst) :=
  if negb (d_nn (g_dic st)) then UB else
  match get_sym (g_dic st) n with
  | None => fail_with ERR_BADSYMBOLINDEX st
  | Some s => match sy_doms s with
              | None => Done (ret_i 1 (repeat 0 (sy_dim s)), st)
              | Some l => Done (ret_i 1 l, st)
              end
  end.

(** 2383-2428 (gdxSymbolGetDomainX). *)
Fixpoint dom_names (look : Z -> option str) (l : list Z) : outcome (list str) :=
  match l with
  | [] => Done []
  | n :: r => do s <- (if n =? 0 then Done (s2z "*") else match look n with Some s => Done s | None => UB end) ;;
              do ss <- dom_names look r ;; Done (s :: ss)
  end.
Definition symbol_get_domain_x (n : Z) (st : gst) : outcome (resp * gst) :=
  let d := g_dic st in
  if negb (d_nn d) then UB else
  match get_sym d n with
  | None => fail_with ERR_BADSYMBOLINDEX st
  | Some s =>
      match sy_dstrs s with
      | Some l => do ss <- dom_names (fun k => option_map fst (znth (d_dstrs d) (k - 1))) l ;; Done (ret_s 2 ss, st)
      | None =>
          match sy_doms s with
          | None => Done (ret_s 1 (repeat (s2z "*") (sy_dim s)), st)
          | Some l => do ss <- dom_names (sym_name d) l ;; Done (ret_s 3 ss, st)
          end
      end
  end.

(** 3458-3461 (gdxSetHasText), 3550-3563 (gdxSymbolGetComment). *)
Definition set_has_text (n : Z) (st : gst) : outcome (resp * gst) :=
  Done (ret (match get_sym (g_dic st) n with Some s => b2z (sy_settext s) | None => 0 end), st).
Definition symbol_get_comment (n k : Z) (st : gst) : outcome (resp * gst) :=
  match get_sym (g_dic st) n with
  | Some s => match znth (sy_comments s) (k - 1) with
              | Some t => Done (ret_s 1 [t], st)
              | None => Done (ret_s 0 [[]], st)
              end
  | None => Done (ret_s 0 [[]], st)
  end.

(** 2258-2280 (gdxGetElemText). *)
Definition get_elem_text (n : Z) (st : gst) : outcome (resp * gst) :=
  match d_texts (g_dic st) with
  | None => Done (ret_is 0 [0] [[]], st)
  | Some l => match znth l n with
              | Some (t, node) => Done (ret_is 1 [node] [t], st)
              | None => Done (ret_is 0 [0] [bad_text n], st)
              end
  end.

(** 2586-2591 (gdxSystemInfo), 2647-2658 (gdxUMUelGet), 2660-2670 (gdxUMUelInfo),
    2705-2717 (gdxGetUEL), 3570-3583 (gdxUMFindUEL), 2672-2675 (gdxCurrentDim). *)
Definition system_info (st : gst) : outcome (resp * gst) :=
  Done (ret_i 1 [sym_count (g_dic st); uel_count (g_dic st)], st).
Definition um_uel_get (n : Z) (st : gst) : outcome (resp * gst) :=
  match znth (d_uels (g_dic st)) (n - 1) with
  | Some (s, m) => Done (ret_is 1 [m] [s], st)
  | None => Done (ret_is 0 [-1] [bad_uel n], st)
  end.
Definition um_uel_info (st : gst) : outcome (resp * gst) :=
  match f_strm (g_fil st) with
  | None => Done (ret_i 0 [0; 0], st)
  | Some _ => if d_un (g_dic st)
              then Done (ret_i 1 [uel_count (g_dic st); im_high (d_usr (g_dic st))], st) else UB
  end.
Definition get_uel (n : Z) (st : gst) : outcome (resp * gst) :=
  let d := g_dic st in
  if negb (d_un d) then Done (ret_s 0 [[]], st)
  else let en := im_get (d_usr d) n in
       if 1 <=? en then match uel_text d en with Some s => Done (ret_s 1 [s], st) | None => UB end
       else Done (ret_s 0 [bad_uel n], st).
Definition um_find_uel (s : str) (st : gst) : outcome (resp * gst) :=
  let d := g_dic st in
  if negb (d_un d) then Done (ret_i 0 [-1; -1], st)
  else
    do t <- trim_store s ;;
    let n := uel_find d t in
    if n <? 0 then Done (ret_i 0 [n; -1], st)
    else do v <- user_map d n ;; Done (ret_i 1 [n; v], st).
Definition current_dim (st : gst) : outcome (resp * gst) := Done (ret (Z.of_nat (w_dim (g_wrk st))), st).

(** 1725-1730 (gdxFileVersion), 3277-3295 (gdxFileInfo). *)
Definition file_version (st : gst) : outcome (resp * gst) :=
  Done (ret_s 1 [f_sysid (g_fil st); f_prod (g_fil st)], st).
Definition file_info (st : gst) : outcome (resp * gst) :=
  let f := g_fil st in
  Done (ret_i 1 (if f_stat f =? 0 then [0; 0] else if f_stat f =? 1 then [f_ver f; f_compr f]
                 else [GDX_VERSION; f_compr f]), st).

(** ** Errors *)

(** 2282-2297 (gdxGetLastError).  [io] is what GetLastIOResult of the open file answers:
    it comes from the operating system and is an input here (zero: no error).  What a
    failing disk does to the data is not modelled. *)
Definition get_last_error (io : Z) (st : gst) : outcome (resp * gst) :=
  match f_strm (g_fil st) with
  | Some _ => if io =? 0 then Done (ret (r_last (g_err st)), upd_err (set_r_last 0) st) else Done (ret io, st)
  | None => Done (ret (r_last (g_err st)), upd_err (set_r_last 0) st)
  end.
(** 2253-2256 (gdxErrorCount), 2155-2158 (gdxDataErrorCount). *)
Definition error_count (st : gst) : outcome (resp * gst) := Done (ret (r_tot (g_err st)), st).
Definition data_error_count (st : gst) : outcome (resp * gst) :=
  Done (ret (match r_list (g_err st) with Some l => zlen l | None => 0 end), st).
(** 3586-3589 (gdxStoreDomainSets), 3596-3599 (gdxAllowBogusDomains), 3607-3610
    (gdxMapAcronymsToNaN). *)
Definition store_domain_sets (st : gst) : outcome (resp * gst) := Done (ret (b2z (e_storedom (g_env st))), st).
Definition allow_bogus_domains (st : gst) : outcome (resp * gst) := Done (ret (b2z (e_bogus (g_env st))), st).
Definition map_acronyms_to_nan (st : gst) : outcome (resp * gst) := Done (ret (b2z (e_acrnan (g_env st))), st).
(** 2173-2191 (gdxDataErrorRecordX), 2160-2171 (gdxDataErrorRecord). *)
Definition data_error_record_x (n : Z) (st : gst) : outcome (resp * gst) :=
  checked [fr_init; fw_init; fr_map_data; fr_mapr_data; fw_raw_data; fw_map_data; fw_str_data] st (
  match r_list (g_err st) with
  | None => Done (ret 0, st)
  | Some l => match znth l (n - 1) with
              | Some (keys, vals) => Done (ret_iv 1 keys vals, st)
              | None => fail_with ERR_BADERRORRECORD st
              end
  end).
Definition data_error_record (n : Z) (st : gst) : outcome (resp * gst) :=
  do (r, st) <- data_error_record_x n st ;;
  Done (mkResp (r_code r) (List.map Z.abs (r_ints r)) (r_strs r) (r_vals r) (r_calls r), st).

(** ** Special values: 2299-2318 (gdxGetSpecialValues), 3418-3437 (gdxMapValue) *)
Definition get_special (st : gst) : outcome (resp * gst) :=
  Done (ret_iv 1 [] (firstn 5 (e_tab (g_env st)) ++ [SV_ACR]), st).
Definition map_value (x : Z) (st : gst) : outcome (resp * gst) :=
  match index_of x (firstn 5 (e_tab (g_env st))) 0 with
  | Some i => Done (ret_i 1 [i], st)
  | None => Done (ret_i 0 [5], st)
  end.

(** ** Acronyms *)

(** 2965-2968 (gdxAcronymCount), 2970-2983 (gdxAcronymGetInfo).  A name of 64 or more
    characters, or a text of 256 or more, does not fit into the caller's buffer. *)
Definition acronym_count (st : gst) : outcome (resp * gst) := Done (ret (zlen (d_acros (g_dic st))), st).
Definition acronym_get_info (n : Z) (st : gst) : outcome (resp * gst) :=
  if negb (d_nn (g_dic st)) then UB else
  match znth (d_acros (g_dic st)) (n - 1) with
  | None => Done (ret_is 0 [0] [[]; []], st)
  | Some a => if (zlen (ac_name a) <=? 63) && (zlen (ac_text a) <=? 255)
              then Done (ret_is 1 [ac_map a] [ac_name a; ac_text a], st) else UB
  end.
(** 3028-3039 (gdxAcronymGetMapping).  The range check always succeeds. *)
Definition acronym_get_mapping (n : Z) (st : gst) : outcome (resp * gst) :=
  match znth (d_acros (g_dic st)) (n - 1) with
  | None => UB
  | Some a => Done (ret_i 1 [ac_map a; ac_rmap a; b2z (ac_auto a)], st)
  end.
(** 3240-3243 (gdxAcronymIndex), 3245-3258 (gdxAcronymName), 3260-3263 (gdxAcronymValue). *)
Definition acro_of (x : Z) : outcome Z :=
  if fltb x SV_ACR then Done 0
  else match d_round (fdiv x SV_ACR) with Some n => Done n | None => UB end.
Definition acronym_index (x : Z) (st : gst) : outcome (resp * gst) :=
  do n <- acro_of x ;; Done (ret n, st).
Definition acronym_name (x : Z) (st : gst) : outcome (resp * gst) :=
  do n <- acro_of x ;;
  if n <=? 0 then Done (ret_s 0 [[]], st)
  else if negb (d_nn (g_dic st)) then UB
  else
    let name := match znth (d_acros (g_dic st)) (acro_entry n (d_acros (g_dic st))) with
                | Some a => ac_name a
                | None => s2z "UnknownAcronym" ++ int_str n
                end in
    if zlen name <=? 255 then Done (ret_s 1 [name], st) else UB.
Definition acronym_value (n : Z) (st : gst) : outcome (resp * gst) :=
  Done (ret_iv 1 [] [if n <=? 0 then 0 else fmul SV_ACR (fofZ n)], st).

(** ** Filters *)

(** 3041-3045 (gdxFilterExists). *)
Definition filter_exists (n : Z) (st : gst) : outcome (resp * gst) :=
  checked AnyReadMode st (
  if negb (d_nn (g_dic st)) then UB
  else Done (ret (match find_filter (d_filts (g_dic st)) n with Some _ => 1 | None => 0 end), st)).

(** 4001-4012 (AddFilter). *)
Fixpoint drop_filter (n : Z) (l : list filt) : list filt :=
  match l with
  | [] => []
  | f :: r => if fl_nr f =? n then r else f :: drop_filter n r
  end.
Definition put_filter (f : filt) (l : list filt) : list filt :=
  List.map (fun g => if fl_nr g =? fl_nr f then f else g) l.

(** 3047-3055 (gdxFilterRegisterStart), 3057-3068 (gdxFilterRegister). *)
Definition filter_register_start (n : Z) (st : gst) : outcome (resp * gst) :=
  checked [fr_init] st (
  if n <? 1 then fail_with ERR_BAD_FILTER_NR st
  else if negb (d_nn (g_dic st) && d_un (g_dic st)) then UB
  else
    let f := mkFilt n (im_high (d_usr (g_dic st))) [] false in
    let st := upd_dic (fun d => set_d_filts (drop_filter n (d_filts d) ++ [f]) d) st in
    okay (set_g_mode fr_filter (upd_wrk (set_w_curf (Some n)) st))).
Definition cur_filter (st : gst) : outcome filt :=
  match w_curf (g_wrk st) with
  | Some n => match find_filter (d_filts (g_dic st)) n with Some f => Done f | None => UB end
  | None => UB
  end.
Definition filter_register (n : Z) (st : gst) : outcome (resp * gst) :=
  checked [fr_filter] st (
  do f <- cur_filter st ;;
  if negb ((1 <=? n) && (n <=? fl_max f)) then fail_with ERR_BAD_FILTER_INDX st
  else if 1 <=? im_get (d_usr (g_dic st)) n then
    do l <- bits_add n (fl_map f) ;;
    okay (upd_dic (fun d => set_d_filts (put_filter (set_fl_map l f) (d_filts d)) d) st)
  else fail_with ERR_FILTER_UNMAPPED st).

(** 3070-3095 (gdxFilterRegisterDone). *)
Fixpoint filt_increasing (f : filt) (l : list Z) (lv : Z) : bool :=
  match l with
  | [] => true
  | v :: r => if in_filter f v then (if v <=? lv then false else filt_increasing f r v)
              else filt_increasing f r lv
  end.
Definition filter_register_done (st : gst) : outcome (resp * gst) :=
  checked [fr_filter] st (
  do f <- cur_filter st ;;
  let '(s, d) := map_status (g_dic st) in
  let sorted := match s with map_unsorted => filt_increasing f (List.map snd (d_uels d)) (-1) | _ => true end in
  let st := set_g_dic d st in
  let st := upd_dic (fun d => set_d_filts (put_filter (set_fl_sorted sorted f) (d_filts d)) d) st in
  okay (set_g_mode fr_init (upd_wrk (set_w_curf None) st))).
