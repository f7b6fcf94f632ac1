(** * ApiFile: opening and closing files

    src/gxfile.cpp 398-463 (gdxOpenWriteEx), 534-663 (gdxClose), 677-684 (destructor),
    1853-2099 (gdxOpenReadXX) and 3439-3456 (gdxOpenAppend).

    The operating system is modelled by the map [e_disk] from names to contents: creating
    a file always succeeds, opening a missing one gives error 2, and closing a stream
    makes its contents visible.  What is on the disk while a file is being written is
    the subject of Crash.v.  GDXCONVERT and GDXCOMPRESS are unset. *)

From Coq Require Import String.
From Verif Require Import Base Prim Values Records LinkedData StrHash IntMap Strings AStream BufStream State FileImage ApiCore.
Open Scope Z_scope.
Open Scope list_scope.

(** ** The disk *)

Fixpoint disk_get (d : list (str * list Z)) (name : str) : option (list Z) :=
  match d with
  | [] => None
  | (n, c) :: r => if str_eqb n name then Some c else disk_get r name
  end.
Fixpoint disk_put (d : list (str * list Z)) (name : str) (c : list Z) : list (str * list Z) :=
  match d with
  | [] => [(name, c)]
  | (n, c0) :: r => if str_eqb n name then (n, c) :: r else (n, c0) :: disk_put r name c
  end.

(** A stream on a file with the given contents. *)
Definition open_stream (name : str) (contents : list Z) (st : gst) : gst :=
  upd_fil (fun f => set_f_name name (set_f_start contents (set_f_ops []
                      (set_f_strm (Some (as_open contents)) f)))) st.

(** A pointer to a symbol of an earlier file. *)
Definition forget_cur (st : gst) : gst :=
  upd_wrk (fun w => set_w_cur (match w_cur w with CSym _ => CDangling | c => c end) w) st.

(** 686-717 (gdxResetSpecialValues). *)
Definition reset_special (st : gst) : gst :=
  upd_env (fun e => set_e_tab default_tab (set_e_rtab default_tab e)) st.

Section Z.
Context (z : zlib).

(** ** gdxOpenWriteEx (398-461) *)

(** The object as it is when the header is about to be written. *)
Definition fresh_session (name prod : str) (compr : Z) (st : gst) : gst :=
  let st := open_stream name [] st in
  let st := upd_fil (fun f => set_f_bo (z_host z) (set_f_ver GDX_VERSION (set_f_compr compr
              (set_f_compout (0 <? compr) (set_f_sysid auditLine (set_f_prod prod f)))))) st in
  let st := forget_cur (upd_wrk (set_w_rd None) (init_errors st)) in
  upd_dic (fun d => mkDic [] [] im_new None (Some [([], 0)]) (d_maptext d) [] [] []
                      (d_uelcnt d) true true true) st.

(** The object after the header and the space for the index have been written. *)
Definition ready_session (mip nwp : Z) (st : gst) : gst :=
  set_g_mode fw_init (reset_special (upd_fil (fun f => set_f_mip mip (set_f_nwp nwp (set_f_stat 2 f))) st)).

(** 421-461: creating the file.  zlib is available, so Compr is kept up to its parity. *)
Definition create_file (name prod : str) (compr : Z) (st : gst) : outcome (resp * gst) :=
  do p <- write_string prod ;;
  do st <- s_write (preamble (z_host z) ++ enc_byte gdxHeaderNr ++ enc_str gdxHeaderId
                      ++ enc_int (z_host z) GDX_VERSION ++ enc_int (z_host z) (compr mod 2)
                      ++ enc_str auditLine ++ p) (fresh_session name prod (compr mod 2) st) ;;
  do (mip, st) <- s_getpos z st ;;
  do st <- s_write index_room st ;;
  do (nwp, st) <- s_getpos z st ;;
  Done (ret_i 1 [0], ready_session mip nwp st).

Definition open_write (name prod : str) (compr : Z) (st : gst) : outcome (resp * gst) :=
  if negb (mode_in (g_mode st) [f_not_open]) then Done (ret_i 0 [ERR_FILEALREADYOPEN], st)
  else match name with
  | [] => Done (ret_i 0 [ERR_NOFILE], upd_err (set_r_last ERR_NOFILE) st)
  | _ => create_file name prod compr st
  end.

(** ** gdxClose (534-663) *)

(** Texts are stored with a one-byte length: longer ones make WriteString read outside
    its buffer. *)
Definition fits (s : str) : bool := zlen s <=? 255.
Definition dic_fits (d : dic) : bool :=
  forallb (fun e => fits (fst e) && fits (sy_expl (snd e)) && forallb fits (sy_comments (snd e))) (d_names d)
  && forallb (fun e => fits (fst e)) (match d_texts d with Some l => l | None => [] end)
  && forallb (fun e => fits (fst e)) (d_uels d)
  && forallb (fun a => fits (acro_saved_name a) && fits (ac_text a)) (d_acros d)
  && forallb (fun e => fits (fst e)) (d_dstrs d).

(** 545-634: the dictionaries and the index. *)
Definition finalize (st : gst) : outcome gst :=
  let d := g_dic st in
  let f := g_fil st in
  if negb (dic_fits d) then UB else
  do st <- s_setcomp z (f_compout f) st ;;
  do st <- s_setpos z (f_nwp f) st ;;
  do st <- s_write (enc_symbs (z_host z) (d_names d)) st ;;
  do (ptext, st) <- s_getpos z st ;;
  do st <- s_setcomp z (f_compout f) st ;;
  do st <- s_write (enc_texts (z_host z) (List.map fst (match d_texts d with Some l => l | None => [] end))) st ;;
  do (puel, st) <- s_getpos z st ;;
  do st <- s_setcomp z (f_compout f) st ;;
  do st <- s_write (enc_uels (z_host z) (List.map fst (d_uels d))) st ;;
  do (pacro, st) <- s_getpos z st ;;
  do st <- s_setcomp z (f_compout f) st ;;
  do st <- s_write (enc_acros (z_host z) (d_acros d)) st ;;
  do (pdoms, st) <- s_getpos z st ;;
  do st <- s_setcomp z (f_compout f) st ;;
  do st <- s_write (enc_doms (z_host z) (List.map fst (d_dstrs d)) (dom_entries 1 (d_names d))) st ;;
  do st <- s_setpos z (f_mip f) st ;;
  do st <- s_setcomp z false st ;;
  s_write (enc_major (z_host z) (mkMajor (f_nwp f) puel ptext pacro (f_nwp f) pdoms)) st.

(** 636-655: the stream is closed, everything is freed. *)
Definition release (st : gst) : resp * gst :=
  let code := match f_strm (g_fil st) with Some _ => 0 | None => 1 end in
  let st := match f_strm (g_fil st) with
            | Some s => upd_env (fun e => set_e_disk (disk_put (e_disk e) (f_name (g_fil st)) (as_final z s)) e) st
            | None => st
            end in
  let st := upd_fil (fun f => set_f_strm None (set_f_stat 0 f)) st in
  let st := upd_dic (fun d => set_d_uelcnt (d_uelcnt d) empty_dic) st in
  let st := upd_err (set_r_list None) st in
  let st := forget_cur (upd_wrk (set_w_sort None) st) in
  (ret code, set_g_mode f_not_open st).

Definition close (st : gst) : outcome (resp * gst) :=
  do st <- (if mode_in (g_mode st) [fw_raw_data; fw_map_data; fw_str_data] then write_done z st else Done st) ;;
  do st <- (if mode_in (g_mode st) [fw_init] then finalize st else Done st) ;;
  Done (release st).

(** 677-684: the destructor. *)
Definition destroy (st : gst) : outcome (resp * gst) :=
  if mode_in (g_mode st) [f_not_open] then Done (ret 0, st) else close (set_g_mode fr_init st).

(** ** gdxOpenReadXX (1853-2099) *)

(** gmsstrm.hpp 296-317 (initOrderCommon): [Some b] when the order is known. *)
Definition p_order1 (n : nat) (pat : list Z) : parser (option bool) :=
  (sz <- p_byte ;;
   if negb (sz =? Z.of_nat n) then _ <- ptake (Z.to_nat sz) ;; pret None
   else v <- ptake n ;; pret (if str_eqb v pat then Some false else if str_eqb v (rev pat) then Some true else None))%parse.
Definition p_order : parser (option border) :=
  (w <- p_order1 2 (le_bytes 2 0x1234) ;;
   i <- p_order1 4 (le_bytes 4 0x12345678) ;;
   d <- p_order1 8 (le_bytes 8 PI_BITS) ;;
   pret (match w, i, d with Some w, Some i, Some d => Some (mkBO w i d) | _, _, _ => None end))%parse.

(** 1873-1877, 1879-1882: FileErrorNr and FileNoGood. *)
Definition file_error (st : gst) : outcome (resp * gst) :=
  Done (ret_i 0 [r_last (g_err st)], upd_fil (set_f_strm None) st).
Definition file_no_good (e : Z) (st : gst) : outcome (resp * gst) :=
  file_error (upd_err (set_r_last e) st).
(** ErrorCondition( cnd, err ) followed by FileErrorNr. *)
Definition check_or (cnd : bool) (e : Z) (st : gst) (k : gst -> outcome (resp * gst)) : outcome (resp * gst) :=
  if cnd then k st else file_error (set_error e st).

(** 2037-2054: the element texts, with the renumbering of repeated ones. *)
Fixpoint load_texts (l : list str) (n nr : Z) (texts : list (str * Z)) (m : option (list Z))
    : outcome (list (str * Z) * option (list Z)) :=
  match l with
  | [] => Done (texts, m)
  | s :: r =>
      let '(texts', k) := sl_add false texts s 0 in
      if k =? n then load_texts r (n + 1) nr texts' m
      else
        let m0 := match m with
                  | Some m0 => m0
                  | None => List.map Z.of_nat (seq 0 (Z.to_nat n)) ++ repeat 0 (Z.to_nat (nr - n))
                  end in
        if (n <? zlen m0) then load_texts r (n + 1) nr texts' (Some (zset n k m0)) else UB
  end.

Definition p_counted {A} (bo : border) (p : parser A) : parser (list A) :=
  (n <- p_int bo ;; prepeat (Z.to_nat n) p)%parse.

(** The sections, in the order they are read. *)
Definition open_doms (m : major) (st : gst) (k : gst -> outcome (resp * gst)) : outcome (resp * gst) :=
  let st := upd_dic (fun d => set_d_dn true (set_d_dstrs [] d)) st in
  let f := g_fil st in
  if (7 <=? f_ver f) && negb (mj_doms m =? 0) then
    do st <- s_setcomp z (f_uncomp f) st ;;
    do st <- s_setpos z (mj_doms m) st ;;
    do (mark, st) <- s_parse z p_str st ;;
    check_or (str_eqb mark MARK_DOMS) ERR_OPEN_DOMSMARKER1 st (fun st =>
    do (names, st) <- s_parse z (p_counted (f_bo f) p_sstr) st ;;
    let st := upd_dic (set_d_dstrs (List.map (fun s => (s, tt)) names)) st in
    do (mark, st) <- s_parse z p_str st ;;
    check_or (str_eqb mark MARK_DOMS) ERR_OPEN_DOMSMARKER2 st (fun st =>
    let dims := List.map (fun e => sy_dim (snd e)) (d_names (g_dic st)) in
    do (es, st) <- s_parse z (fun l => p_entries (f_bo f) dims (S (length l)) l) st ;;
    let st := upd_dic (fun d => set_d_names (set_entries es (d_names d)) d) st in
    do (mark, st) <- s_parse z p_str st ;;
    check_or (str_eqb mark MARK_DOMS) ERR_OPEN_DOMSMARKER3 st k))
  else k st.

Definition open_acros (m : major) (st : gst) (k : gst -> outcome (resp * gst)) : outcome (resp * gst) :=
  let f := g_fil st in
  if 7 <=? f_ver f then
    do st <- s_setcomp z (f_uncomp f) st ;;
    do st <- s_setpos z (mj_acro m) st ;;
    do (mark, st) <- s_parse z p_str st ;;
    check_or (str_eqb mark MARK_ACRO) ERR_OPEN_ACROMARKER1 st (fun st =>
    do (l, st) <- s_parse z (p_counted (f_bo f) (p_acro (f_bo f))) st ;;
    let st := upd_dic (set_d_acros l) st in
    do (mark, st) <- s_parse z p_str st ;;
    check_or (str_eqb mark MARK_ACRO) ERR_OPEN_ACROMARKER2 st k)
  else k st.

Definition open_texts (m : major) (st : gst) (k : gst -> outcome (resp * gst)) : outcome (resp * gst) :=
  let f := g_fil st in
  do st <- s_setcomp z (f_uncomp f) st ;;
  do st <- s_setpos z (mj_text m) st ;;
  let st := upd_dic (set_d_texts (Some [])) st in
  do (mark, st) <- s_parse z p_str st ;;
  check_or (str_eqb mark MARK_SETT) ERR_OPEN_TEXTMARKER1 st (fun st =>
  do (l, st) <- s_parse z (p_counted (f_bo f) p_sstr) st ;;
  do (texts, mt) <- load_texts l 0 (zlen l) [] (d_maptext (g_dic st)) ;;
  let st := upd_dic (fun d => set_d_texts (Some texts) (set_d_maptext mt d)) st in
  do (mark, st) <- s_parse z p_str st ;;
  check_or (str_eqb mark MARK_SETT) ERR_OPEN_TEXTMARKER2 st k).

(** 2014: files written before 2002 count one label too many. *)
Definition is_2001 (sysid : str) : bool := str_eqb (firstn 4 (skipn 15 sysid)) (s2z "2001").

Definition open_uels (m : major) (st : gst) (k : gst -> outcome (resp * gst)) : outcome (resp * gst) :=
  let f := g_fil st in
  do st <- s_setcomp z (f_uncomp f) st ;;
  do st <- s_setpos z (mj_uel m) st ;;
  let st := upd_dic (fun d => set_d_un true (set_d_uels [] (set_d_usr im_new (set_d_status None d)))) st in
  do (mark, st) <- s_parse z p_str st ;;
  check_or (str_eqb mark MARK_UEL) ERR_OPEN_UELMARKER1 st (fun st =>
  do (n, st) <- s_parse z (p_int (f_bo f)) st ;;
  let n := if is_2001 (f_sysid f) then n - 1 else n in
  do (l, st) <- s_parse z (p_strs (Z.to_nat n)) st ;;
  let st := upd_dic (fun d => set_d_uels (List.map (fun s => (s, -1)) l) (set_d_uelcnt (zlen l) d)) st in
  do (mark, st) <- s_parse z p_str st ;;
  check_or (str_eqb mark MARK_UEL) ERR_OPEN_UELMARKER2 st k).

Definition open_symbs (m : major) (st : gst) (k : gst -> outcome (resp * gst)) : outcome (resp * gst) :=
  let f := g_fil st in
  do st <- s_setcomp z (f_uncomp f) st ;;
  do st <- s_setpos z (mj_symb m) st ;;
  do (mark, st) <- s_parse z p_str st ;;
  check_or (str_eqb mark MARK_SYMB) ERR_OPEN_SYMBOLMARKER1 st (fun st =>
  do (l, st) <- s_parse z (p_counted (f_bo f) (p_sym (f_bo f) (f_ver f))) st ;;
  let st := upd_dic (fun d => set_d_nn true (set_d_names l (set_d_acros [] (set_d_filts [] d)))) st in
  let st := match l with [] => st | _ => upd_wrk (set_w_cur (CSym (zlen l))) st end in
  do (mark, st) <- s_parse z p_str st ;;
  check_or (str_eqb mark MARK_SYMB) ERR_OPEN_SYMBOLMARKER2 st k).

(** 1889-1914: the header, up to the mark of the index. *)
Definition open_header (st : gst) (k : gst -> outcome (resp * gst)) : outcome (resp * gst) :=
  do (bo, st) <- s_parse z p_order st ;;
  match bo with
  | None => file_no_good ERR_BADDATAFORMAT st
  | Some bo =>
      let st := upd_fil (set_f_bo bo) st in
      do (b, st) <- s_parse z p_byte st ;;
      check_or (b =? gdxHeaderNr) ERR_OPEN_FILEHEADER st (fun st =>
      do (id, st) <- s_parse z p_str st ;;
      check_or (str_eqb (upper id) (upper gdxHeaderId)) ERR_OPEN_FILEMARKER st (fun st =>
      do (ver, st) <- s_parse z (p_int bo) st ;;
      let st := upd_fil (set_f_ver ver) st in
      check_or (ver <=? GDX_VERSION) ERR_OPEN_FILEVERSION st (fun st =>
      do (compr, st) <- (if ver <=? 5 then Done (0, st) else s_parse z (p_int bo) st) ;;
      do (sysid, st) <- s_parse z p_str st ;;
      do (prod, st) <- s_parse z p_str st ;;
      let st := upd_fil (fun f => set_f_uncomp (0 <? compr) (set_f_compr compr
                           (set_f_sysid sysid (set_f_prod prod f)))) st in
      do (mip, st) <- s_getpos z st ;;
      let st := upd_fil (set_f_mip mip) st in
      do (boi, st) <- s_parse z (p_int bo) st ;;
      check_or (boi =? MARK_BOI) ERR_OPEN_BOI st k)))
  end.

Definition open_read (name : str) (readmode : Z) (st : gst) : outcome (resp * gst) :=
  if negb (mode_in (g_mode st) [f_not_open]) then Done (ret_i 0 [ERR_FILEALREADYOPEN], st)
  else
    let st := forget_cur (upd_wrk (set_w_rd None) (init_errors st)) in
    match name with
    | [] => file_no_good ERR_NOFILE st
    | _ =>
        match disk_get (e_disk (g_env st)) name with
        | None => file_no_good 2 st
        | Some contents =>
            open_header (open_stream name contents st) (fun st =>
            do (m, st) <- s_parse z (p_major (f_bo (g_fil st)) (f_ver (g_fil st)) (f_nwp (g_fil st))) st ;;
            let st := upd_fil (set_f_nwp (mj_nwp m)) st in
            open_symbs m st (fun st =>
            open_uels m st (fun st =>
            let rest st :=
              open_acros m st (fun st =>
              open_doms m st (fun st =>
              let st := reset_special (upd_err (set_r_last 0) st) in
              let st := upd_fil (set_f_stat 1) (set_g_mode fr_init st) in
              do st <- s_setcomp z false st ;;
              Done (ret_i 1 [0], st))) in
            if Z.rem readmode 2 =? 0 then open_texts m st rest else rest st)))
        end
    end.

(** ** gdxOpenAppend (3439-3456).  FProducer2 and AppendActive are never used again. *)
Definition open_append (name : str) (st : gst) : outcome (resp * gst) :=
  do (r, st) <- open_read name 0 st ;;
  if negb (r_code r =? 1) then Done (r, st)
  else if f_ver (g_fil st) <? 7 then
    do (_, st) <- close (set_error ERR_FILETOOLDFORAPPEND st) ;;
    Done (ret_i 0 [0], st)
  else
    let st := upd_fil (set_f_stat 2) (set_g_mode fw_init st) in
    do st <- s_setpos z (f_nwp (g_fil st)) st ;;
    Done (r, upd_fil (fun f => set_f_compout (f_uncomp f) f) st).

End Z.
