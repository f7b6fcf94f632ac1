(** * Api: the calls of the library and their execution

    src/gdx.hpp (class TGXFileObj): one constructor per modelled function of the public
    interface.  Integers, doubles (as 64-bit patterns) and strings are the arguments; the
    answer is a [resp].  Not modelled: gdxErrorStr, gdxGetDLLVersion, gdxGetMemoryUsed,
    gdxAutoConvert, gdxSetTraceLevel, and the wrappers that load the library. *)

From Verif Require Import Base Prim Values Records LinkedData StrHash IntMap Strings AStream BufStream State FileImage ApiCore ApiFile ApiWrite ApiRead.

Inductive call :=
| gdxOpenWriteEx (name prod : str) (compr : Z)
| gdxOpenReadEx (name : str) (readmode : Z)
| gdxOpenAppend (name : str)
| gdxClose
| gdxFree
| gdxDataWriteRawStart (name text : str) (dim typ uinfo : Z)
| gdxDataWriteRawStartKeyBounds (name text : str) (dim typ uinfo : Z) (mins maxs : list Z)
| gdxDataWriteRaw (keys vals : list Z)
| gdxDataWriteMapStart (name text : str) (dim typ uinfo : Z)
| gdxDataWriteMap (keys vals : list Z)
| gdxDataWriteStrStart (name text : str) (dim typ uinfo : Z)
| gdxDataWriteStr (keys : list str) (vals : list Z)
| gdxDataWriteDone
| gdxSymbolSetDomain (ids : list str)
| gdxSymbolSetDomainX (synr : Z) (ids : list str)
| gdxAddAlias (id1 id2 : str)
| gdxSymbolAddComment (synr : Z) (txt : str)
| gdxAddSetText (txt : str)
| gdxSetTextNodeNr (txtnr node : Z)
| gdxUELRegisterRawStart
| gdxUELRegisterRaw (uel : str)
| gdxUELRegisterStrStart
| gdxUELRegisterStr (uel : str)
| gdxUELRegisterMapStart
| gdxUELRegisterMap (umap : Z) (uel : str)
| gdxUELRegisterDone
| gdxRenameUEL (old new : str)
| gdxAcronymAdd (name txt : str) (ix : Z)
| gdxAcronymSetInfo (n : Z) (name txt : str) (ix : Z)
| gdxAcronymNextNr (nv : Z)
| gdxSetSpecialValues (vals : list Z)
| gdxSetReadSpecialValues (vals : list Z)
| gdxResetSpecialValues
| gdxStoreDomainSetsSet (flag : Z)
| gdxAllowBogusDomainsSet (flag : Z)
| gdxMapAcronymsToNaNSet (flag : Z)
| gdxDataReadRawStart (synr : Z)
| gdxDataReadRaw
| gdxDataReadStrStart (synr : Z)
| gdxDataReadStr
| gdxDataReadMapStart (synr : Z)
| gdxDataReadFilteredStart (synr : Z) (acts : list Z)
| gdxDataReadMap (buf : list Z)
| gdxDataReadDone
| gdxDataReadRawFast (synr : Z)
| gdxDataReadRawFastEx (synr : Z) (limit : option nat)
| gdxDataReadRawFastFilt (synr : Z) (labels : list str) (limit : option nat)
| gdxDataReadSliceStart (synr : Z)
| gdxDataReadSlice (labels : list str)
| gdxDataSliceUELS (keys : list Z)
| gdxGetDomainElements (synr pos filtnr : Z) (calls : bool)
| gdxSymbIndxMaxLength (synr : Z)
| gdxSymbMaxLength
| gdxUELMaxLength
| gdxFindSymbol (name : str)
| gdxSymbolInfo (synr : Z)
| gdxSymbolDim (synr : Z)
| gdxSymbolInfoX (synr : Z)
| gdxSymbolGetDomain (synr : Z)
| gdxSymbolGetDomainX (synr : Z)
| gdxSetHasText (synr : Z)
| gdxSymbolGetComment (synr n : Z)
| gdxGetElemText (n : Z)
| gdxSystemInfo
| gdxUMUelGet (n : Z)
| gdxUMUelInfo
| gdxGetUEL (n : Z)
| gdxUMFindUEL (uel : str)
| gdxCurrentDim
| gdxFileVersion
| gdxFileInfo
| gdxGetLastError (io : Z)
| gdxErrorCount
| gdxStoreDomainSets
| gdxAllowBogusDomains
| gdxMapAcronymsToNaN
| gdxDataErrorCount
| gdxDataErrorRecord (n : Z)
| gdxDataErrorRecordX (n : Z)
| gdxGetSpecialValues
| gdxMapValue (x : Z)
| gdxAcronymCount
| gdxAcronymGetInfo (n : Z)
| gdxAcronymGetMapping (n : Z)
| gdxAcronymIndex (x : Z)
| gdxAcronymName (x : Z)
| gdxAcronymValue (n : Z)
| gdxFilterExists (n : Z)
| gdxFilterRegisterStart (n : Z)
| gdxFilterRegister (n : Z)
| gdxFilterRegisterDone.

Definition exec (z : zlib) (c : call) : gst -> outcome (resp * gst) :=
  match c with
  | gdxOpenWriteEx name prod compr => open_write z name prod compr
  | gdxOpenReadEx name rm => open_read z name rm
  | gdxOpenAppend name => open_append z name
  | gdxClose => close z
  | gdxFree => destroy z
  | gdxDataWriteRawStart n t d ty u => write_raw_start z n t d ty u
  | gdxDataWriteRawStartKeyBounds n t d ty u lo hi => write_raw_start_bounds z n t d ty u lo hi
  | gdxDataWriteRaw k v => write_raw z k v
  | gdxDataWriteMapStart n t d ty u => write_map_start z n t d ty u
  | gdxDataWriteMap k v => write_map k v
  | gdxDataWriteStrStart n t d ty u => write_str_start z n t d ty u
  | gdxDataWriteStr k v => write_str k v
  | gdxDataWriteDone => data_write_done z
  | gdxSymbolSetDomain ids => symbol_set_domain ids
  | gdxSymbolSetDomainX n ids => symbol_set_domain_x n ids
  | gdxAddAlias a b => add_alias a b
  | gdxSymbolAddComment n t => symbol_add_comment n t
  | gdxAddSetText t => add_set_text t
  | gdxSetTextNodeNr n k => set_text_node_nr n k
  | gdxUELRegisterRawStart => register_raw_start
  | gdxUELRegisterRaw s => register_raw s
  | gdxUELRegisterStrStart => register_str_start
  | gdxUELRegisterStr s => register_str s
  | gdxUELRegisterMapStart => register_map_start
  | gdxUELRegisterMap n s => register_map n s
  | gdxUELRegisterDone => register_done
  | gdxRenameUEL o n => rename_uel o n
  | gdxAcronymAdd n t i => acronym_add n t i
  | gdxAcronymSetInfo k n t i => acronym_set_info k n t i
  | gdxAcronymNextNr n => acronym_next_nr n
  | gdxSetSpecialValues v => set_special v
  | gdxSetReadSpecialValues v => set_read_special v
  | gdxResetSpecialValues => fun st => Done (ret 1, reset_special st)
  | gdxStoreDomainSetsSet b => fun st => Done (ret 0, upd_env (set_e_storedom (negb (b =? 0))) st)
  | gdxAllowBogusDomainsSet b => fun st => Done (ret 0, upd_env (set_e_bogus (negb (b =? 0))) st)
  | gdxMapAcronymsToNaNSet b => fun st => Done (ret 0, upd_env (set_e_acrnan (negb (b =? 0))) st)
  | gdxDataReadRawStart n => read_raw_start z n
  | gdxDataReadRaw => read_raw z
  | gdxDataReadStrStart n => read_str_start z n
  | gdxDataReadStr => read_str z
  | gdxDataReadMapStart n => read_map_start z n
  | gdxDataReadFilteredStart n a => read_filtered_start z n a
  | gdxDataReadMap b => read_map z b
  | gdxDataReadDone => read_done
  | gdxDataReadRawFast n => read_raw_fast z n
  | gdxDataReadRawFastEx n l => read_raw_fast_ex z n l
  | gdxDataReadRawFastFilt n fs l => read_raw_fast_filt z n fs l
  | gdxDataReadSliceStart n => slice_start z n
  | gdxDataReadSlice fs => read_slice z fs
  | gdxDataSliceUELS k => data_slice_uels k
  | gdxGetDomainElements n p f b => get_domain_elements z n p f b
  | gdxSymbIndxMaxLength n => symb_indx_max_length z n
  | gdxSymbMaxLength => symb_max_length
  | gdxUELMaxLength => uel_max_length
  | gdxFindSymbol s => find_symbol s
  | gdxSymbolInfo n => symbol_info n
  | gdxSymbolDim n => symbol_dim n
  | gdxSymbolInfoX n => symbol_info_x n
  | gdxSymbolGetDomain n => symbol_get_domain n
  | gdxSymbolGetDomainX n => symbol_get_domain_x n
  | gdxSetHasText n => set_has_text n
  | gdxSymbolGetComment n k => symbol_get_comment n k
  | gdxGetElemText n => get_elem_text n
  | gdxSystemInfo => system_info
  | gdxUMUelGet n => um_uel_get n
  | gdxUMUelInfo => um_uel_info
  | gdxGetUEL n => get_uel n
  | gdxUMFindUEL s => um_find_uel s
  | gdxCurrentDim => current_dim
  | gdxFileVersion => file_version
  | gdxFileInfo => file_info
  | gdxGetLastError io => get_last_error io
  | gdxErrorCount => error_count
  | gdxStoreDomainSets => store_domain_sets
  | gdxAllowBogusDomains => allow_bogus_domains
  | gdxMapAcronymsToNaN => map_acronyms_to_nan
  | gdxDataErrorCount => data_error_count
  | gdxDataErrorRecord n => data_error_record n
  | gdxDataErrorRecordX n => data_error_record_x n
  | gdxGetSpecialValues => get_special
  | gdxMapValue x => map_value x
  | gdxAcronymCount => acronym_count
  | gdxAcronymGetInfo n => acronym_get_info n
  | gdxAcronymGetMapping n => acronym_get_mapping n
  | gdxAcronymIndex x => acronym_index x
  | gdxAcronymName x => acronym_name x
  | gdxAcronymValue n => acronym_value n
  | gdxFilterExists n => filter_exists n
  | gdxFilterRegisterStart n => filter_register_start n
  | gdxFilterRegister n => filter_register n
  | gdxFilterRegisterDone => filter_register_done
  end.

(** A sequence of calls. *)
Fixpoint run (z : zlib) (cs : list call) (st : gst) : outcome (list resp * gst) :=
  match cs with
  | [] => Done ([], st)
  | c :: r => do (x, st) <- exec z c st ;; do (xs, st) <- run z r st ;; Done (x :: xs, st)
  end.
