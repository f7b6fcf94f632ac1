(** * State: the state of a GDX object

    src/gdx.hpp 1745-1805 (the members of TGXFileObj) and src/gxfile.hpp (TgdxSymbRecord,
    TAcronym, TDFilter, TUELTable).  The hash tables of the object are represented by
    the lists they are proved to implement (StrHash.v: [hl_ok] and [hl_*_correct]);
    bit sets by the list of their members (IntMap.v: [ba_sets_spec]); the file by the
    ideal stream (AStream.v), to which the buffered stream of the library is related by
    BufStream.v.  Trace output (TraceLevel, debugStream, MajContext, LastRepError) has
    no influence on results and is not modelled. *)

From Verif Require Import Base Prim Values Records LinkedData StrHash IntMap Strings AStream BufStream.

(** gxfile.hpp 167-188 (TgxFileMode). *)
Inductive gmode :=
| f_not_open | fr_init | fw_init | fw_dom_raw | fw_dom_map | fw_dom_str
| fw_raw_data | fw_map_data | fw_str_data | f_raw_elem | f_map_elem | f_str_elem
| fr_raw_data | fr_map_data | fr_mapr_data | fr_str_data | fr_filter | fr_slice.

Definition mode_eq_dec : forall a b : gmode, {a = b} + {a <> b}.
Proof. decide equality. Defined.
Definition mode_in (m : gmode) (l : list gmode) : bool := if in_dec mode_eq_dec m l then true else false.

(** gxfile.hpp 203-204 (AnyWriteMode, AnyReadMode). *)
Definition AnyWriteMode : list gmode :=
  [fw_init; fw_dom_raw; fw_dom_map; fw_dom_str; fw_raw_data; fw_map_data; fw_str_data].
Definition AnyReadMode : list gmode := [fr_init; fr_raw_data; fr_map_data; fr_mapr_data; fr_str_data].

(** generated/gclgms.h: data types (dt_set .. dt_alias), and gxfile.hpp 77 (DataTypSize). *)
Definition dt_set : Z := 0.
Definition dt_par : Z := 1.
Definition dt_var : Z := 2.
Definition dt_equ : Z := 3.
Definition dt_alias : Z := 4.
Definition data_size (t : Z) : option nat :=
  if t =? 0 then Some 1%nat else if t =? 1 then Some 1%nat else if t =? 2 then Some 5%nat
  else if t =? 3 then Some 5%nat else if t =? 4 then Some 0%nat else None.

Definition MAX_DIM : nat := 20.

(** gxfile.cpp: the error codes used by the modelled functions. *)
Definition err (k : Z) : Z := -100000 - k.
Definition ERR_NOFILE := err 0.
Definition ERR_BADMODE := err 2.
Definition ERR_BADDIMENSION := err 3.
Definition ERR_BADELEMENTINDEX := err 4.
Definition ERR_BADSYMBOLINDEX := err 5.
Definition ERR_DUPLICATESYMBOL := err 7.
Definition ERR_DATADUPLICATE := err 9.
Definition ERR_UNKNOWNFILTER := err 10.
Definition ERR_BADIDENTFORMAT := err 12.
Definition ERR_UELCONFLICT := err 13.
Definition ERR_DUPLICATESPECVAL := err 14.
Definition ERR_BADERRORRECORD := err 15.
Definition ERR_BADUELSTR := err 17.
Definition ERR_BAD_FILTER_NR := err 21.
Definition ERR_BAD_FILTER_INDX := err 22.
Definition ERR_FILTER_UNMAPPED := err 23.
Definition ERR_RAWNOTSORTED := err 25.
Definition ERR_BADDATAMARKER_DATA := err 29.
Definition ERR_BADDATAMARKER_DIM := err 30.
Definition ERR_OPEN_BOI := err 31.
Definition ERR_OPEN_FILEHEADER := err 32.
Definition ERR_OPEN_FILEVERSION := err 33.
Definition ERR_OPEN_FILEMARKER := err 34.
Definition ERR_OPEN_SYMBOLMARKER1 := err 35.
Definition ERR_OPEN_SYMBOLMARKER2 := err 36.
Definition ERR_OPEN_UELMARKER1 := err 37.
Definition ERR_OPEN_UELMARKER2 := err 38.
Definition ERR_OPEN_TEXTMARKER1 := err 39.
Definition ERR_OPEN_TEXTMARKER2 := err 40.
Definition ERR_BADDATAFORMAT := err 41.
Definition ERR_OUT_OF_MEMORY := err 43.
Definition ERR_OPEN_ACROMARKER1 := err 45.
Definition ERR_OPEN_ACROMARKER2 := err 46.
Definition ERR_BADACROINDEX := err 47.
Definition ERR_BADACRONUMBER := err 48.
Definition ERR_BADACRONAME := err 49.
Definition ERR_ACRODUPEMAP := err 50.
Definition ERR_ACROBADADDITION := err 51.
Definition ERR_UNKNOWNDOMAIN := err 52.
Definition ERR_BADDOMAIN := err 53.
Definition ERR_NODOMAINDATA := err 54.
Definition ERR_ALIASSETEXPECTED := err 55.
Definition ERR_BADDATATYPE := err 56.
Definition ERR_NOSYMBOLFORCOMMENT := err 57.
Definition ERR_DOMAINVIOLATION := err 58.
Definition ERR_FILEALREADYOPEN := err 59.
Definition ERR_FILETOOLDFORAPPEND := err 60.
Definition ERR_OPEN_DOMSMARKER1 := err 61.
Definition ERR_OPEN_DOMSMARKER2 := err 62.
Definition ERR_OPEN_DOMSMARKER3 := err 63.

(** gxfile.hpp 125-138 (TgdxSymbRecord).  SSyNr is never read and left out. *)
Record sym := mkSym {
  sy_pos : Z;   (* SPosition *)
  sy_dim : nat;   (* SDim *)
  sy_type : Z;   (* SDataType *)
  sy_uinfo : Z;   (* SUserInfo *)
  sy_count : Z;   (* SDataCount *)
  sy_errs : Z;   (* SErrors *)
  sy_settext : bool;   (* SSetText *)
  sy_expl : str;   (* SExplTxt *)
  sy_comp : bool;   (* SIsCompressed *)
  sy_scalar : bool;   (* SScalarFrst, not stored *)
  sy_doms : option (list Z);   (* SDomSymbols *)
  sy_dstrs : option (list Z);   (* SDomStrings *)
  sy_comments : list str;   (* SCommentsList; an absent list and an empty one behave alike *)
  sy_bits : option (list Z)   (* SSetBitMap: members *)
}.
Definition set_sy_pos (v : Z) (r : sym) : sym := mkSym v (sy_dim r) (sy_type r) (sy_uinfo r) (sy_count r) (sy_errs r) (sy_settext r) (sy_expl r) (sy_comp r) (sy_scalar r) (sy_doms r) (sy_dstrs r) (sy_comments r) (sy_bits r).
Definition set_sy_dim (v : nat) (r : sym) : sym := mkSym (sy_pos r) v (sy_type r) (sy_uinfo r) (sy_count r) (sy_errs r) (sy_settext r) (sy_expl r) (sy_comp r) (sy_scalar r) (sy_doms r) (sy_dstrs r) (sy_comments r) (sy_bits r).
Definition set_sy_type (v : Z) (r : sym) : sym := mkSym (sy_pos r) (sy_dim r) v (sy_uinfo r) (sy_count r) (sy_errs r) (sy_settext r) (sy_expl r) (sy_comp r) (sy_scalar r) (sy_doms r) (sy_dstrs r) (sy_comments r) (sy_bits r).
Definition set_sy_uinfo (v : Z) (r : sym) : sym := mkSym (sy_pos r) (sy_dim r) (sy_type r) v (sy_count r) (sy_errs r) (sy_settext r) (sy_expl r) (sy_comp r) (sy_scalar r) (sy_doms r) (sy_dstrs r) (sy_comments r) (sy_bits r).
Definition set_sy_count (v : Z) (r : sym) : sym := mkSym (sy_pos r) (sy_dim r) (sy_type r) (sy_uinfo r) v (sy_errs r) (sy_settext r) (sy_expl r) (sy_comp r) (sy_scalar r) (sy_doms r) (sy_dstrs r) (sy_comments r) (sy_bits r).
Definition set_sy_errs (v : Z) (r : sym) : sym := mkSym (sy_pos r) (sy_dim r) (sy_type r) (sy_uinfo r) (sy_count r) v (sy_settext r) (sy_expl r) (sy_comp r) (sy_scalar r) (sy_doms r) (sy_dstrs r) (sy_comments r) (sy_bits r).
Definition set_sy_settext (v : bool) (r : sym) : sym := mkSym (sy_pos r) (sy_dim r) (sy_type r) (sy_uinfo r) (sy_count r) (sy_errs r) v (sy_expl r) (sy_comp r) (sy_scalar r) (sy_doms r) (sy_dstrs r) (sy_comments r) (sy_bits r).
Definition set_sy_expl (v : str) (r : sym) : sym := mkSym (sy_pos r) (sy_dim r) (sy_type r) (sy_uinfo r) (sy_count r) (sy_errs r) (sy_settext r) v (sy_comp r) (sy_scalar r) (sy_doms r) (sy_dstrs r) (sy_comments r) (sy_bits r).
Definition set_sy_comp (v : bool) (r : sym) : sym := mkSym (sy_pos r) (sy_dim r) (sy_type r) (sy_uinfo r) (sy_count r) (sy_errs r) (sy_settext r) (sy_expl r) v (sy_scalar r) (sy_doms r) (sy_dstrs r) (sy_comments r) (sy_bits r).
Definition set_sy_scalar (v : bool) (r : sym) : sym := mkSym (sy_pos r) (sy_dim r) (sy_type r) (sy_uinfo r) (sy_count r) (sy_errs r) (sy_settext r) (sy_expl r) (sy_comp r) v (sy_doms r) (sy_dstrs r) (sy_comments r) (sy_bits r).
Definition set_sy_doms (v : option (list Z)) (r : sym) : sym := mkSym (sy_pos r) (sy_dim r) (sy_type r) (sy_uinfo r) (sy_count r) (sy_errs r) (sy_settext r) (sy_expl r) (sy_comp r) (sy_scalar r) v (sy_dstrs r) (sy_comments r) (sy_bits r).
Definition set_sy_dstrs (v : option (list Z)) (r : sym) : sym := mkSym (sy_pos r) (sy_dim r) (sy_type r) (sy_uinfo r) (sy_count r) (sy_errs r) (sy_settext r) (sy_expl r) (sy_comp r) (sy_scalar r) (sy_doms r) v (sy_comments r) (sy_bits r).
Definition set_sy_comments (v : list str) (r : sym) : sym := mkSym (sy_pos r) (sy_dim r) (sy_type r) (sy_uinfo r) (sy_count r) (sy_errs r) (sy_settext r) (sy_expl r) (sy_comp r) (sy_scalar r) (sy_doms r) (sy_dstrs r) v (sy_bits r).
Definition set_sy_bits (v : option (list Z)) (r : sym) : sym := mkSym (sy_pos r) (sy_dim r) (sy_type r) (sy_uinfo r) (sy_count r) (sy_errs r) (sy_settext r) (sy_expl r) (sy_comp r) (sy_scalar r) (sy_doms r) (sy_dstrs r) (sy_comments r) v.

(** gxfile.hpp 281-294 (TAcronym). *)
Record acro := mkAcro {
  ac_name : str;   (* AcrName *)
  ac_text : str;   (* AcrText *)
  ac_map : Z;   (* AcrMap *)
  ac_rmap : Z;   (* AcrReadMap *)
  ac_auto : bool   (* AcrAutoGen *)
}.
Definition set_ac_name (v : str) (r : acro) : acro := mkAcro v (ac_text r) (ac_map r) (ac_rmap r) (ac_auto r).
Definition set_ac_text (v : str) (r : acro) : acro := mkAcro (ac_name r) v (ac_map r) (ac_rmap r) (ac_auto r).
Definition set_ac_map (v : Z) (r : acro) : acro := mkAcro (ac_name r) (ac_text r) v (ac_rmap r) (ac_auto r).
Definition set_ac_rmap (v : Z) (r : acro) : acro := mkAcro (ac_name r) (ac_text r) (ac_map r) v (ac_auto r).
Definition set_ac_auto (v : bool) (r : acro) : acro := mkAcro (ac_name r) (ac_text r) (ac_map r) (ac_rmap r) v.

(** gxfile.hpp 86-114 (TDFilter). *)
Record filt := mkFilt {
  fl_nr : Z;   (* FiltNumber *)
  fl_max : Z;   (* FiltMaxUel *)
  fl_map : list Z;   (* FiltMap: members *)
  fl_sorted : bool   (* FiltSorted *)
}.
Definition set_fl_nr (v : Z) (r : filt) : filt := mkFilt v (fl_max r) (fl_map r) (fl_sorted r).
Definition set_fl_max (v : Z) (r : filt) : filt := mkFilt (fl_nr r) v (fl_map r) (fl_sorted r).
Definition set_fl_map (v : list Z) (r : filt) : filt := mkFilt (fl_nr r) (fl_max r) v (fl_sorted r).
Definition set_fl_sorted (v : bool) (r : filt) : filt := mkFilt (fl_nr r) (fl_max r) (fl_map r) v.

(** gxfile.hpp 247-254 (TUELUserMapStatus), without map_unknown (an absent cache). *)
Inductive mstat := map_unsorted | map_sorted | map_sortgrow | map_sortfull.

(** gxfile.hpp 116-127 (TgdxDAction with the filter). *)
Inductive dact := dm_unmapped | dm_strict | dm_filter (f : filt) | dm_expand.

(** The dictionaries of an open file. *)
Record dic := mkDic {
  d_names : list (str * sym);   (* NameList, one based *)
  d_uels : list (str * Z);   (* UELTable with the user mapping, one based *)
  d_usr : imap;   (* UELTable->UsrUel2Ent *)
  d_status : option mstat;   (* FMapToUserStatus *)
  d_texts : option (list (str * Z));   (* SetTextList with node numbers, zero based *)
  d_maptext : option (list Z);   (* MapSetText *)
  d_acros : list acro;   (* AcronymList *)
  d_filts : list filt;   (* FilterList *)
  d_dstrs : list (str * unit);   (* DomainStrList, one based *)
  d_uelcnt : Z;   (* UelCntOrig *)
  d_nn : bool;   (* NameList (and with it AcronymList, FilterList) exists *)
  d_un : bool;   (* UELTable exists *)
  d_dn : bool   (* DomainStrList exists *)
}.
Definition set_d_names (v : list (str * sym)) (r : dic) : dic := mkDic v (d_uels r) (d_usr r) (d_status r) (d_texts r) (d_maptext r) (d_acros r) (d_filts r) (d_dstrs r) (d_uelcnt r) (d_nn r) (d_un r) (d_dn r).
Definition set_d_uels (v : list (str * Z)) (r : dic) : dic := mkDic (d_names r) v (d_usr r) (d_status r) (d_texts r) (d_maptext r) (d_acros r) (d_filts r) (d_dstrs r) (d_uelcnt r) (d_nn r) (d_un r) (d_dn r).
Definition set_d_usr (v : imap) (r : dic) : dic := mkDic (d_names r) (d_uels r) v (d_status r) (d_texts r) (d_maptext r) (d_acros r) (d_filts r) (d_dstrs r) (d_uelcnt r) (d_nn r) (d_un r) (d_dn r).
Definition set_d_status (v : option mstat) (r : dic) : dic := mkDic (d_names r) (d_uels r) (d_usr r) v (d_texts r) (d_maptext r) (d_acros r) (d_filts r) (d_dstrs r) (d_uelcnt r) (d_nn r) (d_un r) (d_dn r).
Definition set_d_texts (v : option (list (str * Z))) (r : dic) : dic := mkDic (d_names r) (d_uels r) (d_usr r) (d_status r) v (d_maptext r) (d_acros r) (d_filts r) (d_dstrs r) (d_uelcnt r) (d_nn r) (d_un r) (d_dn r).
Definition set_d_maptext (v : option (list Z)) (r : dic) : dic := mkDic (d_names r) (d_uels r) (d_usr r) (d_status r) (d_texts r) v (d_acros r) (d_filts r) (d_dstrs r) (d_uelcnt r) (d_nn r) (d_un r) (d_dn r).
Definition set_d_acros (v : list acro) (r : dic) : dic := mkDic (d_names r) (d_uels r) (d_usr r) (d_status r) (d_texts r) (d_maptext r) v (d_filts r) (d_dstrs r) (d_uelcnt r) (d_nn r) (d_un r) (d_dn r).
Definition set_d_filts (v : list filt) (r : dic) : dic := mkDic (d_names r) (d_uels r) (d_usr r) (d_status r) (d_texts r) (d_maptext r) (d_acros r) v (d_dstrs r) (d_uelcnt r) (d_nn r) (d_un r) (d_dn r).
Definition set_d_dstrs (v : list (str * unit)) (r : dic) : dic := mkDic (d_names r) (d_uels r) (d_usr r) (d_status r) (d_texts r) (d_maptext r) (d_acros r) (d_filts r) v (d_uelcnt r) (d_nn r) (d_un r) (d_dn r).
Definition set_d_uelcnt (v : Z) (r : dic) : dic := mkDic (d_names r) (d_uels r) (d_usr r) (d_status r) (d_texts r) (d_maptext r) (d_acros r) (d_filts r) (d_dstrs r) v (d_nn r) (d_un r) (d_dn r).
Definition set_d_nn (v : bool) (r : dic) : dic := mkDic (d_names r) (d_uels r) (d_usr r) (d_status r) (d_texts r) (d_maptext r) (d_acros r) (d_filts r) (d_dstrs r) (d_uelcnt r) v (d_un r) (d_dn r).
Definition set_d_un (v : bool) (r : dic) : dic := mkDic (d_names r) (d_uels r) (d_usr r) (d_status r) (d_texts r) (d_maptext r) (d_acros r) (d_filts r) (d_dstrs r) (d_uelcnt r) (d_nn r) v (d_dn r).
Definition set_d_dn (v : bool) (r : dic) : dic := mkDic (d_names r) (d_uels r) (d_usr r) (d_status r) (d_texts r) (d_maptext r) (d_acros r) (d_filts r) (d_dstrs r) (d_uelcnt r) (d_nn r) (d_un r) v.

(** What survives closing a file: the disk and the options of the object. *)
Record env := mkEnv {
  e_disk : list (str * list Z);   (* the files, the first entry counts *)
  e_storedom : bool;   (* StoreDomainSets *)
  e_bogus : bool;   (* AllowBogusDomain *)
  e_acrnan : bool;   (* MapAcrToNaN *)
  e_nextacr : Z;   (* NextAutoAcronym *)
  e_tab : list Z;   (* intlValueMapDbl / I64 (ten markers) *)
  e_rtab : list Z   (* readIntlValueMapDbl *)
}.
Definition set_e_disk (v : list (str * list Z)) (r : env) : env := mkEnv v (e_storedom r) (e_bogus r) (e_acrnan r) (e_nextacr r) (e_tab r) (e_rtab r).
Definition set_e_storedom (v : bool) (r : env) : env := mkEnv (e_disk r) v (e_bogus r) (e_acrnan r) (e_nextacr r) (e_tab r) (e_rtab r).
Definition set_e_bogus (v : bool) (r : env) : env := mkEnv (e_disk r) (e_storedom r) v (e_acrnan r) (e_nextacr r) (e_tab r) (e_rtab r).
Definition set_e_acrnan (v : bool) (r : env) : env := mkEnv (e_disk r) (e_storedom r) (e_bogus r) v (e_nextacr r) (e_tab r) (e_rtab r).
Definition set_e_nextacr (v : Z) (r : env) : env := mkEnv (e_disk r) (e_storedom r) (e_bogus r) (e_acrnan r) v (e_tab r) (e_rtab r).
Definition set_e_tab (v : list Z) (r : env) : env := mkEnv (e_disk r) (e_storedom r) (e_bogus r) (e_acrnan r) (e_nextacr r) v (e_rtab r).
Definition set_e_rtab (v : list Z) (r : env) : env := mkEnv (e_disk r) (e_storedom r) (e_bogus r) (e_acrnan r) (e_nextacr r) (e_tab r) v.

(** The open file. *)
Record fil := mkFil {
  f_name : str;
  f_strm : option astream;   (* FFile *)
  f_start : list Z;   (* ghost: contents when the stream was opened *)
  f_ops : list sop;   (* ghost: operations on the stream, newest first *)
  f_bo : border;   (* byte order determined at opening *)
  f_ver : Z;   (* VersionRead *)
  f_compr : Z;   (* fComprLev *)
  f_compout : bool;   (* CompressOut *)
  f_uncomp : bool;   (* DoUncompress *)
  f_mip : Z;   (* MajorIndexPosition *)
  f_nwp : Z;   (* NextWritePosition *)
  f_sysid : str;   (* FileSystemID *)
  f_prod : str;   (* FProducer *)
  f_stat : Z   (* fstatus: 0 not open, 1 read, 2 write *)
}.
Definition set_f_name (v : str) (r : fil) : fil := mkFil v (f_strm r) (f_start r) (f_ops r) (f_bo r) (f_ver r) (f_compr r) (f_compout r) (f_uncomp r) (f_mip r) (f_nwp r) (f_sysid r) (f_prod r) (f_stat r).
Definition set_f_strm (v : option astream) (r : fil) : fil := mkFil (f_name r) v (f_start r) (f_ops r) (f_bo r) (f_ver r) (f_compr r) (f_compout r) (f_uncomp r) (f_mip r) (f_nwp r) (f_sysid r) (f_prod r) (f_stat r).
Definition set_f_start (v : list Z) (r : fil) : fil := mkFil (f_name r) (f_strm r) v (f_ops r) (f_bo r) (f_ver r) (f_compr r) (f_compout r) (f_uncomp r) (f_mip r) (f_nwp r) (f_sysid r) (f_prod r) (f_stat r).
Definition set_f_ops (v : list sop) (r : fil) : fil := mkFil (f_name r) (f_strm r) (f_start r) v (f_bo r) (f_ver r) (f_compr r) (f_compout r) (f_uncomp r) (f_mip r) (f_nwp r) (f_sysid r) (f_prod r) (f_stat r).
Definition set_f_bo (v : border) (r : fil) : fil := mkFil (f_name r) (f_strm r) (f_start r) (f_ops r) v (f_ver r) (f_compr r) (f_compout r) (f_uncomp r) (f_mip r) (f_nwp r) (f_sysid r) (f_prod r) (f_stat r).
Definition set_f_ver (v : Z) (r : fil) : fil := mkFil (f_name r) (f_strm r) (f_start r) (f_ops r) (f_bo r) v (f_compr r) (f_compout r) (f_uncomp r) (f_mip r) (f_nwp r) (f_sysid r) (f_prod r) (f_stat r).
Definition set_f_compr (v : Z) (r : fil) : fil := mkFil (f_name r) (f_strm r) (f_start r) (f_ops r) (f_bo r) (f_ver r) v (f_compout r) (f_uncomp r) (f_mip r) (f_nwp r) (f_sysid r) (f_prod r) (f_stat r).
Definition set_f_compout (v : bool) (r : fil) : fil := mkFil (f_name r) (f_strm r) (f_start r) (f_ops r) (f_bo r) (f_ver r) (f_compr r) v (f_uncomp r) (f_mip r) (f_nwp r) (f_sysid r) (f_prod r) (f_stat r).
Definition set_f_uncomp (v : bool) (r : fil) : fil := mkFil (f_name r) (f_strm r) (f_start r) (f_ops r) (f_bo r) (f_ver r) (f_compr r) (f_compout r) v (f_mip r) (f_nwp r) (f_sysid r) (f_prod r) (f_stat r).
Definition set_f_mip (v : Z) (r : fil) : fil := mkFil (f_name r) (f_strm r) (f_start r) (f_ops r) (f_bo r) (f_ver r) (f_compr r) (f_compout r) (f_uncomp r) v (f_nwp r) (f_sysid r) (f_prod r) (f_stat r).
Definition set_f_nwp (v : Z) (r : fil) : fil := mkFil (f_name r) (f_strm r) (f_start r) (f_ops r) (f_bo r) (f_ver r) (f_compr r) (f_compout r) (f_uncomp r) (f_mip r) v (f_sysid r) (f_prod r) (f_stat r).
Definition set_f_sysid (v : str) (r : fil) : fil := mkFil (f_name r) (f_strm r) (f_start r) (f_ops r) (f_bo r) (f_ver r) (f_compr r) (f_compout r) (f_uncomp r) (f_mip r) (f_nwp r) v (f_prod r) (f_stat r).
Definition set_f_prod (v : str) (r : fil) : fil := mkFil (f_name r) (f_strm r) (f_start r) (f_ops r) (f_bo r) (f_ver r) (f_compr r) (f_compout r) (f_uncomp r) (f_mip r) (f_nwp r) (f_sysid r) v (f_stat r).
Definition set_f_stat (v : Z) (r : fil) : fil := mkFil (f_name r) (f_strm r) (f_start r) (f_ops r) (f_bo r) (f_ver r) (f_compr r) (f_compout r) (f_uncomp r) (f_mip r) (f_nwp r) (f_sysid r) (f_prod r) v.

(** The error bookkeeping. *)
Record errs := mkErr {
  r_last : Z;   (* LastError *)
  r_cnt : Z;   (* ErrCnt *)
  r_tot : Z;   (* ErrCntTotal *)
  r_list : option (list (list Z * list Z))   (* ErrorList *)
}.
Definition set_r_last (v : Z) (r : errs) : errs := mkErr v (r_cnt r) (r_tot r) (r_list r).
Definition set_r_cnt (v : Z) (r : errs) : errs := mkErr (r_last r) v (r_tot r) (r_list r).
Definition set_r_tot (v : Z) (r : errs) : errs := mkErr (r_last r) (r_cnt r) v (r_list r).
Definition set_r_list (v : option (list (list Z * list Z))) (r : errs) : errs := mkErr (r_last r) (r_cnt r) (r_tot r) v.

(** CurSyPtr: null, a symbol of the name list, or a pointer to a deleted symbol (gdxClose
    deletes the symbols and does not reset it). *)
Inductive curp := CNull | CSym (n : Z) | CDangling.

(** The symbol being written or read. *)
Record wrk := mkWrk {
  w_cur : curp;   (* CurSyPtr *)
  w_dim : nat;   (* FCurrentDim *)
  w_dsize : nat;   (* DataSize *)
  w_last : list Z;   (* LastElem, as many as the dimension *)
  w_prev : list Z;   (* PrevElem, all 20 *)
  w_mms : list (Z * Z);   (* MinElem, MaxElem *)
  w_lstr : list str;   (* LastStrElem *)
  w_wrb : list (option Z);   (* WrBitMaps: the symbol that owns the bit map *)
  w_cnt : Z;   (* DataCount *)
  w_sort : option (list (list Z * list Z));   (* SortList, in the order of AddItem *)
  w_rd : option (list (list Z * list Z));   (* ReadPtr: the records from it on *)
  w_univ : bool;   (* ReadUniverse *)
  w_unr : Z;   (* UniverseNr *)
  w_doms : list dact;   (* DomainList *)
  w_added : Z;   (* NrMappedAdded *)
  w_curf : option Z   (* CurFilter: number of a filter of FilterList *)
}.
Definition set_w_cur (v : curp) (r : wrk) : wrk := mkWrk v (w_dim r) (w_dsize r) (w_last r) (w_prev r) (w_mms r) (w_lstr r) (w_wrb r) (w_cnt r) (w_sort r) (w_rd r) (w_univ r) (w_unr r) (w_doms r) (w_added r) (w_curf r).
Definition set_w_dim (v : nat) (r : wrk) : wrk := mkWrk (w_cur r) v (w_dsize r) (w_last r) (w_prev r) (w_mms r) (w_lstr r) (w_wrb r) (w_cnt r) (w_sort r) (w_rd r) (w_univ r) (w_unr r) (w_doms r) (w_added r) (w_curf r).
Definition set_w_dsize (v : nat) (r : wrk) : wrk := mkWrk (w_cur r) (w_dim r) v (w_last r) (w_prev r) (w_mms r) (w_lstr r) (w_wrb r) (w_cnt r) (w_sort r) (w_rd r) (w_univ r) (w_unr r) (w_doms r) (w_added r) (w_curf r).
Definition set_w_last (v : list Z) (r : wrk) : wrk := mkWrk (w_cur r) (w_dim r) (w_dsize r) v (w_prev r) (w_mms r) (w_lstr r) (w_wrb r) (w_cnt r) (w_sort r) (w_rd r) (w_univ r) (w_unr r) (w_doms r) (w_added r) (w_curf r).
Definition set_w_prev (v : list Z) (r : wrk) : wrk := mkWrk (w_cur r) (w_dim r) (w_dsize r) (w_last r) v (w_mms r) (w_lstr r) (w_wrb r) (w_cnt r) (w_sort r) (w_rd r) (w_univ r) (w_unr r) (w_doms r) (w_added r) (w_curf r).
Definition set_w_mms (v : list (Z * Z)) (r : wrk) : wrk := mkWrk (w_cur r) (w_dim r) (w_dsize r) (w_last r) (w_prev r) v (w_lstr r) (w_wrb r) (w_cnt r) (w_sort r) (w_rd r) (w_univ r) (w_unr r) (w_doms r) (w_added r) (w_curf r).
Definition set_w_lstr (v : list str) (r : wrk) : wrk := mkWrk (w_cur r) (w_dim r) (w_dsize r) (w_last r) (w_prev r) (w_mms r) v (w_wrb r) (w_cnt r) (w_sort r) (w_rd r) (w_univ r) (w_unr r) (w_doms r) (w_added r) (w_curf r).
Definition set_w_wrb (v : list (option Z)) (r : wrk) : wrk := mkWrk (w_cur r) (w_dim r) (w_dsize r) (w_last r) (w_prev r) (w_mms r) (w_lstr r) v (w_cnt r) (w_sort r) (w_rd r) (w_univ r) (w_unr r) (w_doms r) (w_added r) (w_curf r).
Definition set_w_cnt (v : Z) (r : wrk) : wrk := mkWrk (w_cur r) (w_dim r) (w_dsize r) (w_last r) (w_prev r) (w_mms r) (w_lstr r) (w_wrb r) v (w_sort r) (w_rd r) (w_univ r) (w_unr r) (w_doms r) (w_added r) (w_curf r).
Definition set_w_sort (v : option (list (list Z * list Z))) (r : wrk) : wrk := mkWrk (w_cur r) (w_dim r) (w_dsize r) (w_last r) (w_prev r) (w_mms r) (w_lstr r) (w_wrb r) (w_cnt r) v (w_rd r) (w_univ r) (w_unr r) (w_doms r) (w_added r) (w_curf r).
Definition set_w_rd (v : option (list (list Z * list Z))) (r : wrk) : wrk := mkWrk (w_cur r) (w_dim r) (w_dsize r) (w_last r) (w_prev r) (w_mms r) (w_lstr r) (w_wrb r) (w_cnt r) (w_sort r) v (w_univ r) (w_unr r) (w_doms r) (w_added r) (w_curf r).
Definition set_w_univ (v : bool) (r : wrk) : wrk := mkWrk (w_cur r) (w_dim r) (w_dsize r) (w_last r) (w_prev r) (w_mms r) (w_lstr r) (w_wrb r) (w_cnt r) (w_sort r) (w_rd r) v (w_unr r) (w_doms r) (w_added r) (w_curf r).
Definition set_w_unr (v : Z) (r : wrk) : wrk := mkWrk (w_cur r) (w_dim r) (w_dsize r) (w_last r) (w_prev r) (w_mms r) (w_lstr r) (w_wrb r) (w_cnt r) (w_sort r) (w_rd r) (w_univ r) v (w_doms r) (w_added r) (w_curf r).
Definition set_w_doms (v : list dact) (r : wrk) : wrk := mkWrk (w_cur r) (w_dim r) (w_dsize r) (w_last r) (w_prev r) (w_mms r) (w_lstr r) (w_wrb r) (w_cnt r) (w_sort r) (w_rd r) (w_univ r) (w_unr r) v (w_added r) (w_curf r).
Definition set_w_added (v : Z) (r : wrk) : wrk := mkWrk (w_cur r) (w_dim r) (w_dsize r) (w_last r) (w_prev r) (w_mms r) (w_lstr r) (w_wrb r) (w_cnt r) (w_sort r) (w_rd r) (w_univ r) (w_unr r) (w_doms r) v (w_curf r).
Definition set_w_curf (v : option Z) (r : wrk) : wrk := mkWrk (w_cur r) (w_dim r) (w_dsize r) (w_last r) (w_prev r) (w_mms r) (w_lstr r) (w_wrb r) (w_cnt r) (w_sort r) (w_rd r) (w_univ r) (w_unr r) (w_doms r) (w_added r) v.

(** The slice being read. *)
Record sli := mkSli {
  s_synr : Z;   (* SliceSyNr *)
  s_indx : list imap;   (* SliceIndxs *)
  s_rev : list imap;   (* SliceRevMap *)
  s_elems : list str   (* SliceElems *)
}.
Definition set_s_synr (v : Z) (r : sli) : sli := mkSli v (s_indx r) (s_rev r) (s_elems r).
Definition set_s_indx (v : list imap) (r : sli) : sli := mkSli (s_synr r) v (s_rev r) (s_elems r).
Definition set_s_rev (v : list imap) (r : sli) : sli := mkSli (s_synr r) (s_indx r) v (s_elems r).
Definition set_s_elems (v : list str) (r : sli) : sli := mkSli (s_synr r) (s_indx r) (s_rev r) v.

(** The object. *)
Record gst := mkGst {
  g_mode : gmode;   (* fmode *)
  g_aft : gmode;   (* fmode_AftReg *)
  g_env : env;
  g_fil : fil;
  g_dic : dic;
  g_err : errs;
  g_wrk : wrk;
  g_sli : sli
}.
Definition set_g_mode (v : gmode) (r : gst) : gst := mkGst v (g_aft r) (g_env r) (g_fil r) (g_dic r) (g_err r) (g_wrk r) (g_sli r).
Definition set_g_aft (v : gmode) (r : gst) : gst := mkGst (g_mode r) v (g_env r) (g_fil r) (g_dic r) (g_err r) (g_wrk r) (g_sli r).
Definition set_g_env (v : env) (r : gst) : gst := mkGst (g_mode r) (g_aft r) v (g_fil r) (g_dic r) (g_err r) (g_wrk r) (g_sli r).
Definition set_g_fil (v : fil) (r : gst) : gst := mkGst (g_mode r) (g_aft r) (g_env r) v (g_dic r) (g_err r) (g_wrk r) (g_sli r).
Definition set_g_dic (v : dic) (r : gst) : gst := mkGst (g_mode r) (g_aft r) (g_env r) (g_fil r) v (g_err r) (g_wrk r) (g_sli r).
Definition set_g_err (v : errs) (r : gst) : gst := mkGst (g_mode r) (g_aft r) (g_env r) (g_fil r) (g_dic r) v (g_wrk r) (g_sli r).
Definition set_g_wrk (v : wrk) (r : gst) : gst := mkGst (g_mode r) (g_aft r) (g_env r) (g_fil r) (g_dic r) (g_err r) v (g_sli r).
Definition set_g_sli (v : sli) (r : gst) : gst := mkGst (g_mode r) (g_aft r) (g_env r) (g_fil r) (g_dic r) (g_err r) (g_wrk r) v.

(** ** Sequencing *)

Notation "'do' x <- m ;; k" := (obind m (fun x => k))
  (at level 200, x pattern, m at level 100, k at level 200, right associativity).

Definition upd {A} (set : A -> gst -> gst) (get : gst -> A) (f : A -> A) (st : gst) : gst := set (f (get st)) st.
Definition upd_env := upd set_g_env g_env.
Definition upd_fil := upd set_g_fil g_fil.
Definition upd_dic := upd set_g_dic g_dic.
Definition upd_err := upd set_g_err g_err.
Definition upd_wrk := upd set_g_wrk g_wrk.

(** ** The initial object *)

Definition empty_dic : dic := mkDic [] [] im_new None None None [] [] [] 0 false false false.
Definition new_err : errs := mkErr 0 0 0 None.
Definition new_wrk : wrk := mkWrk CNull 0 0 [] (repeat 0 20) [] [] [] 0 None None false 0 [] 0 None.
Definition new_sli : sli := mkSli 0 (repeat im_new 20) (repeat im_new 20) (repeat [] 20).
Definition new_fil : fil := mkFil [] None [] [] native 0 0 false false 0 0 [] [] 0.

(** gxfile.cpp 671-675 (constructor) and the member initializers of gdx.hpp. *)
Definition new_object (disk : list (str * list Z)) : gst :=
  mkGst f_not_open f_not_open (mkEnv disk true true false 0 default_tab default_tab)
    new_fil empty_dic new_err new_wrk new_sli.

(** ** Errors *)

(** gxfile.cpp 1162-1168 (SetError) and 822-834 (ReportError). *)
Definition set_error (n : Z) (st : gst) : gst :=
  if n =? 0 then st
  else upd_err (fun e => mkErr (if r_last e =? 0 then n else r_last e) (r_cnt e + 1) (r_tot e + 1) (r_list e)) st.

(** gxfile.cpp 664-669 (InitErrors). *)
Definition init_errors (st : gst) : gst :=
  upd_err (fun e => mkErr 0 0 0 (r_list e)) st.

(** ** The stream

    The operations on FFile.  A null FFile, and stream situations the library never
    produces, are [UB]. *)

Section Z.
Context (z : zlib).

Definition s_log (s : astream) (o : sop) (st : gst) : gst :=
  upd_fil (fun f => set_f_strm (Some s) (set_f_ops (o :: f_ops f) f)) st.

Definition s_setpos (p : Z) (st : gst) : outcome gst :=
  match f_strm (g_fil st) with
  | Some s => if p <? 0 then UB else Done (s_log (as_setpos z p s) (OSetPos p) st)
  | None => UB
  end.

Definition s_setcomp (c : bool) (st : gst) : outcome gst :=
  match f_strm (g_fil st) with
  | Some s => Done (s_log (as_setcomp z c s) (OSetComp c) st)
  | None => UB
  end.

Definition s_getpos (st : gst) : outcome (Z * gst) :=
  match f_strm (g_fil st) with
  | Some s => match as_getpos z s with
              | Some (p, s') => Done (p, s_log s' OGetPos st)
              | None => UB
              end
  | None => UB
  end.

Definition s_write (bs : list Z) (st : gst) : outcome gst :=
  match f_strm (g_fil st) with
  | Some s => match as_write bs s with
              | Some s' => Done (s_log s' (OWrite bs) st)
              | None => UB
              end
  | None => UB
  end.

(** Reading through a parser of the format; reading past the end is [UB] (the variable
    read into keeps an indeterminate value). *)
Definition s_parse {A} (p : parser A) (st : gst) : outcome (A * gst) :=
  match f_strm (g_fil st) with
  | Some s =>
      let s1 := as_flush z s in
      match as_view z s1 with
      | Some v => match p v with
                  | Some (a, v') => Done (a, s_log (as_consume v' (zlen v - zlen v') s1) (ORead (length v - length v')) st)
                  | None => UB
                  end
      | None => UB
      end
  | None => UB
  end.

(** The parser of DoRead reports its own undefined behaviour. *)
Definition s_parse_o {A} (p : list Z -> outcome (A * list Z)) (st : gst) : outcome (A * gst) :=
  s_parse (fun l => match p l with Done x => Some x | UB => None end) st.

End Z.

(** ** Results

    What a call hands back: the return value, the output integers, strings and doubles,
    and the invocations of a callback. *)
Record resp := mkResp {
  r_code : Z;
  r_ints : list Z;
  r_strs : list str;
  r_vals : list Z;
  r_calls : list (list Z * list Z * Z)
}.
Definition ret (c : Z) : resp := mkResp c [] [] [] [].
Definition ret_i (c : Z) (i : list Z) : resp := mkResp c i [] [] [].
Definition ret_s (c : Z) (s : list str) : resp := mkResp c [] s [] [].
Definition ret_is (c : Z) (i : list Z) (s : list str) : resp := mkResp c i s [] [].
Definition ret_iv (c : Z) (i : list Z) (v : list Z) : resp := mkResp c i [] v [].
Definition ret_isv (c : Z) (i : list Z) (s : list str) (v : list Z) : resp := mkResp c i s v [].
Definition b2z (b : bool) : Z := if b then 1 else 0.
