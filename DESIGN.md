# Design of the formal model of GAMS-dev/gdx

The model is written in Coq 8.16.1 under `rocq/theories` (logical name `Verif`).
It follows the C++ sources in `/repo/src` function by function; every definition
that models code cites the file and lines it models.

## Conventions

- A byte is a `Z` in 0..255, a file is a list of bytes, a C string is a list of
  bytes in 1..255.  A C++ `int` is a `Z`; wrap-around, truncation and signed
  overflow are written out where the code can produce them.
- A `double` is its 64-bit pattern (a `Z` in 0..2^64-1).  Where the code compares or
  divides doubles the model uses `Coq.Floats.SpecFloat`, which is a pure Gallina
  definition of IEEE arithmetic and brings no axioms.
- Undefined behaviour (reading past the end of the file, out-of-range vector
  access, signed overflow) is a separate outcome of the model, never a value.
- zlib is not modelled.  Theorems about compressed files quantify over every
  compressor record whose decompression function inverts its compression function.
- The operating system file is a byte list with positioned reads and writes.

## Layers

1. Codecs: primitive values, strings, packed numbers, password, byte order.
2. Data structures: integer map, bit array, string hash list, linked data
   (radix sort), label table, filters, acronyms.
3. Streams: the buffered (and compressed) file stream and its refinement.
4. Record coding: DoWrite / DoRead.
5. File image: header, index, symbol table, texts, labels, acronyms, domain strings.
6. The API state machine: modes, errors, write sessions, read sessions, append, crash.

The `Prop*.v` files hold the specification vocabulary, the theorems named after the
properties, concrete cases that meet their hypotheses, and `Print Assumptions`.  The
vocabulary common to them is in `Vocab.v` (an answer of a call, a session, calls between
two states), `Reopen.v` (writing, closing and opening again) and, for data, at the head
of the property file that uses it.  `Cases.v` has one file that most of the concrete
cases use.

A write session (`writes`, Reopen.v) begins with gdxOpenWriteEx, or with gdxOpenAppend on a
file that write sessions have left, any number of times; all theorems about what is found
again in a file speak of the last session or, for records (`wrote`), of any session that
contributed to the file.

## Plan per property

- **C01** Raw write then raw read returns the same records. Records.v: DoWrite/DoRead as byte-list encoder/decoder; induction over the record list with the last-key state as invariant.
- **C02** Raw writes accept exactly the strictly increasing records. Records.v: the accept/reject decision of DoWrite compared with lexicographic order; induction over the call list.
- **C03** First-changed-dimension is correct on raw reads. Records.v: decoder's returned dimension compared with an independent first-difference function.
- **C04** Ordinary numbers survive bit for bit. Values.v: value coding by 64-bit compare and 8-byte little endian; algebra on Z.
- **C05** Special values are translated between writer and reader conventions. Values.v: both tables are arguments; case analysis on the marker.
- **C06** Special-value tables are kept free of ambiguity. Values.v: gdxSetSpecialValues model; case analysis.
- **C07** Acronym values keep their index. Values.v, FloatAcr.v: IEEE operations from Coq.Floats.SpecFloat; rounding argument with Flocq for all n in 1..17976931, the largest range for which it is true (17976932e301 is infinite). PropAcr.v: gdxAcronymIndex of gdxAcronymValue n is n, and an acronym written in a record is read as the same acronym, by a reader that gives acronyms no numbers of its own.
- **C08** String writes come back sorted, complete and without duplicates. Records.v + LinkedData.v + Api*.v: sort theorem composed with the encode/decode theorem.
- **C09** Mapped writes and mapped reads are inverse. PropMap.v: what `map_written` leaves in the file (Wrote.v) is read by the selection theorem; the two label maps agree.
- **C10** Dataset order sorting is a stable sort. LinkedData.v: radix passes by induction on the dimension; equality with a reference insertion sort.
- **C11** Labels are a case-insensitive dictionary with stable numbers. StrHash.v: bucket chains and rehashing; invariant relating chains to the list of labels; refinement to an association list.
- **C12** Renaming a label keeps the dictionary consistent. StrHash.v: RenameEntry over the same invariant.
- **C13** Only well-formed labels enter the table. Strings.v / UelTable.v: predicate on strings, invariant over op lists.
- **C14** User label numbers and labels are in one-to-one correspondence. UelTable.v: invariant (one-to-one) over op lists.
- **C15** Conflicting user numbers are refused. UelTable.v: expected to be refuted for the second half (two labels, one number); the first half proved.
- **C16** Sortedness of the user map is tracked correctly. MapFacts.v, PropMap.v: an invariant says that a cached status other than unsorted means increasing numbers, and that a filter's flag stays right while no two labels share a number.
- **C17** Filtered reads return exactly the matching records. PropMap.v: `selects` splits the records by the requests; both ways of reading give the records that pass, and list the others. Requests to extend the label map (-1), the universe and aliases are not covered.
- **C18** Filter registration. Filter.v over BitArray.v.
- **C19** Label maps are total functions with a default. IntMap.v: growth model; refinement to a total function.
- **C20** Everything written is found again after closing and reopening. FileImage.v: sections as serialisers and parsers, prefix-free composition lemmas; Api*.v: invariant over write histories.
- **C21** Data of every symbol is found again after closing and reopening. Api*.v on top of C01 and C20.
- **C22** Compression is transparent. BufStream.v: block writer and reader with an abstract compressor that satisfies the inverse law (explicit hypothesis of the theorem).
- **C23** Buffering is transparent. BufStream.v: simulation between the buffered stream and a plain random access file, induction over operations.
- **C24** Foreign byte order is read correctly. Prim.v: encoders for both byte orders, the reader after the preamble. PropOrder.v: the byte order of the machine is a parameter (`z_host`) of the model; reading calls do not depend on it, and what was written on one machine is read on another. The model keeps the byte order of the file where the code keeps "reverse or not"; C24_model_of_reading shows that this is the same on a machine of either byte order.
- **C25** An unfinished file is never taken for a complete one. Crash.v, PropCrash.v: the physical writes that the buffered stream of `BufStream.v` makes for the operations of a session; every point where they can stop, also inside a write; then open. The place of the index marker is zero until the index, one write, the last one, is made.
- **C26** Appending keeps the existing contents. Reopen.v: a write session starts on a new file or on one that such sessions left (`writes`); the invariant of the image says which blocks were there before. PropAppend.v: table by table, what the reader of the old file finds is what the reader of the new file finds; Wrote.v: the records of an earlier session stay (`wrote`, `later`).
- **C27** Calls out of order are refused and harmless. Api*.v: mode table; for all states and ops.
- **C28** The last error is sticky until it is fetched. Errors.v: fold over arbitrary event lists.
- **C29** Symbol names are unique and valid identifiers. Api*.v: invariant over write histories.
- **C30** Aliases resolve to their set. Api*.v: alias targets always have smaller numbers, hence termination.
- **C31** Domain checking. Api*.v: domain check against the bit set of the domain set.
- **C32** Domain information is preserved. FileImage.v and Api*.v.
- **C33** Element texts. StrHash.v and FileImage.v.
- **C34** Explanatory texts are made safe. Strings.v.
- **C35** Comments are kept in order. FileImage.v and Api*.v.
- **C36** Slice reads select exactly the matching records. Slice.v.
- **C37** Callback reads agree with record-by-record reads. Fast.v.
- **C38** Domain element enumeration is exact. Fast.v.
- **C39** The universe symbol lists all labels. Api*.v.
- **C40** Acronym tables. PropTexts.v: uniqueness, adding, reopening. PropAcr.v: every acronym that is read has the number the reader's table says (and has got one, if the reader gives numbers), a number given is never changed, and two acronyms never get the same number, if all numbers are given by the library (gdxAcronymNextNr); numbers given with gdxAcronymSetInfo may collide with these (`C40_mixed_numbers_refuted`).
- **C41** Packed numbers decode to what was packed. GmsNum.v.
- **C42** Password scrambling is its own inverse at every position. Password.v.
- **C43** Strings in the stream format. Prim.v.
- **C44** Element bit sets. PropStruct.v: membership after any sequence of set operations. Clearing a bit (not used by the library) clears its byte: `C44_clear_refuted`.
- **C45** Error records. Records.v / Api*.v.
- **C46** Widths reported are upper bounds that are attained. Slice.v / Api*.v.
- **C47** Label counts and conversion between file and user numbering. UelTable.v.
- **C48** Corrupted section marks are detected. PropMarks.v: `format` describes the file as a reader meets it; for all byte strings the answer of opening is the one `format` gives.
- **C49** Symbol names and acronym names differ. PropTexts.v: refuted (gdxAcronymAdd does not look at symbol names), and proved for histories in which gdxAcronymAdd is given no symbol's name.
- **C50** Only files that are opened for writing change. PropDisk.v: invariant over all calls: the named file is as before and the object either has another file, none, or this one unchanged in a reading mode.
- **C51** gdxClose completes what was begun. PropDisk.v: equality of the two executions; the state after gdxClose.
- **C52** gdxdiff reports exactly the changed records. Diff.v models the comparison as a client of the API; PropDiff.v proves by induction over both lists which calls it makes (equations and 19-dimensional symbols under DiffOnly are refuted: undefined behaviour).
- **C53** gdxdiff's comparison of numbers. FloatCmp.v gives subtraction, absolute value and comparison of patterns as real numbers (Flocq); PropDiff.v.
- **C54** gdxdiff reports no differences exactly if there are none. PropDiff.v: induction over the symbols of both files, from C52; for infinities that are not GAMS's special values the comparison with itself is refuted.
- **C55** gdxmerge puts every record of every file into the output. Merge.v models the tool as a client of the API; PropMerge.v: invariant over the files (labels numbered the same by user and file, label table and text pool only grow, collected symbols related to the specification `heads`/`records_for`), permutation and order of the sort, doubles as text numbers exact below 2^31.
- **C56** The options of gdxmerge. PropMerge.v: selection proved with names compared by case; refuted: case of names, BIG, files of the same name.
- **C57** What the object tells about itself. PropAsk.v: every state change of a call keeps the switches except the call that sets them (Footprint.v, Sessions.v:exec_one), so their values follow by induction over the calls; the file's attributes by the same invariant between opening and closing; the rest from the definitions of the enquiries and the table invariants.
- **C58** A program that does everything right loses nothing. PropProper.v: the exact conditions of acceptance (C29_starting_a_symbol, C02_accepted_exactly) hold for each record, by induction over the records handed over; then the file holds them (Wrote.v). For labels and user numbers each call is accepted by the exact tests of gdxDataWriteStr and gdxDataWriteMap, and since no tuple comes twice the sorted list has as many records as were handed over, so finishing counts no error (C08).
- **C59** The file that gdxmerge leaves. PropMerged.v composes C55 (the calls the tool makes) with C58 (each of its symbols is accepted), the labels and texts that stay (C11, C33) and are found again (C20), and reading (C01). Hypothesis: no two records of a symbol have the same file name and labels (otherwise the second is refused, see C56). `C59_file_names`: the last symbol, the set of input files, has one element for each file with its describing text, provided the file names are valid labels and differ without regard to case (otherwise they share an element or are refused).
- **C60** The tables that gdxdump writes (Format=csv). Dump.v models `WriteSymbolCSV` as a client of the API (the text of a number is a parameter); PropDump.v gives a small reader of delimited text (`scan`) and proves that it finds one line for each record, with the labels and values as fields, whatever the labels and texts contain. Invariant: a written field is read back whatever follows it; induction over the records that gdxDataReadRaw delivers.
- **C61** The same with CDim=Y: PropTable.v, columns from the first pass over the records (array of marks), lines from the second one; the order of the records (C16) makes the search for the column and the end of a line right.
- **C62** Limits of the tables: column names, indices without a label. Refuted by examples; proved: names of columns that are not neighbours differ.
- **C63** Appending, interrupted: PropInterrupt.v. The physical writes of an appending session (Crash.v) as in C25; invariant over the calls: nothing written yet, or the first three bytes behind the data (the old mark `_SYMB_`) are already those of `_DATA_` in every state of the disk that can be seen; opening follows the old index to that mark and fails. Uncompressed files; refuted for sessions that store no symbol.
- **C64** gdxSetHasText: PropHasText.v. The mark kept with each symbol is followed from the start of the symbol over its records (Footprint.v shows that no other call changes it) to the end of the session and into the file; the sorted, filtered records of Wrote.v are those that set it. Appending: C26_has_text.
- **C65** The data statements that gdxdump writes (Format=normal, NoHeader). DumpData.v models `WriteSymbol` as a client of the API; PropData.v gives a small reader of data statements (`toks`, `split_items`) and proves, by induction over the records, that it finds the items of the records in order. Partial: `C65_quoted_text_refuted`.
- **C66** The lists of labels and symbols that gdxdump writes. DumpList.v models `WriteUELTable` and `WriteSymbolsAsSet`; PropList.v gives a reader of statements (`lex`) and proves that it finds the head of the statement, one item for each label or symbol in order, and the end. That the texts can be quoted comes from C29, C33, C34 and C20; that the names of domains can is C71.
- **C67** The list of element texts that gdxdump writes (SetText). DumpText.v models `WriteSetText` with its binary search; PropSetText.v proves by induction over the halved distance that the search ends with the number of texts (C67_count), and that the lines of the output are the texts in order (C67_texts). That the pass over the records comes to its end is a hypothesis of C67_texts. `C67_highest_refuted`: the second line of the output can be too small.
- **C68** The declarations that gdxdump writes (NoData). DumpDecl.v models `WriteSymbol` with ShowHdr and without ShowData; PropDecl.v uses the reader of C66 and proves that it finds the kind, the name, the domain, the text and the line that loads the data. That the numbers of the domain are numbers of symbols is C71, that aliases refer to earlier symbols is C30. `C68_comment_refuted`: with a comment the text read is another one.
- **C69** The declarations of acronyms that gdxdump writes. DumpAcro.v models `WriteAcronyms`; the reader of C66 is used. The property fails: the loop asks for the numbers 0 to count-1, while acronyms are numbered from 1 (`C69_acronyms_refuted`). `C69_acronyms_partial` says exactly what is written instead: a declaration without a name and the declarations of all acronyms but the last. That the texts can be quoted is an invariant of all write histories; that the names are words is a hypothesis, and `C69_name_refuted` shows that it is needed: gdxAcronymAdd takes any name.
- **C70** The tables of symbols and of domains that gdxdump writes (Symbols, DomainInfo). DumpInfo.v models `WriteSymbolInfo` and `WriteDomainInfo` with the ordered map; PropInfo.v proves, by induction over the insertions, that the map holds every symbol once in the order of the names (names are unique by C29), that the widths of the columns suffice for every line, and that the lines of the output are the heading and one line for each symbol. That the names of domains are identifiers is C71.
- **C71** Domains refer to what is in the file. DomRefs.v has the invariant: the numbers that gdxSymbolSetDomain stores are those of sets and aliases in the symbol table, those that gdxSymbolSetDomainX stores are in the table of domain names, one for each dimension, and the domain names are identifiers. It holds in a new file, is kept by every call (the two calls by induction over the dimensions, all others because they leave the domains alone), and by closing a file and opening it to append. PropRefs.v states what the two queries answer.
- **C72** Every error has a message of its own. Messages.v has the table `errorCodeToStr` and `gdxErrorStr` with the copy into the buffer of 256 characters. Every step of a call that reports an error (Footprint.v) carries that the table has its number; PropMsg.v follows this through sessions and the calls that open and close files. That texts differ and fit the buffer is computed over the table of 76 entries. `C72_long_name_refuted`: the text for a missing file with a long name is written behind the buffer, or not at all.

## Trusted base

1. The kernel of Coq 8.16.1 (with `vm_compute`, used for concrete cases and for some
   finite case analyses; no `native_compute`), and the standard library.
2. The axioms listed by `Print Assumptions`, which every property file prints for each
   theorem.  There are only four, all of the standard library, and they come with the
   real numbers that Flocq uses to specify the IEEE operations of the model:
   `ClassicalDedekindReals.sig_forall_dec`, `ClassicalDedekindReals.sig_not_dec`,
   `FunctionalExtensionality.functional_extensionality_dep`, `Classical_Prop.classic`.
   Theorems that do not mention a model function that touches a double are closed under
   the global context (the table at the end says which).  No axiom, `Variable` or
   `Hypothesis` is added outside a closed section.
3. That the model says what the code does.  Every model definition cites the lines it
   follows; there is no extraction and no link to compiled code.
4. zlib: a theorem that reads compressed data is stated for every record `zlib` of a
   compression and a decompression function together with the fact that the second
   undoes the first (`AStream.v`); `rle_zlib` is a concrete such pair, used in the cases.
   The record also holds the byte order of the machine that writes (`z_host`), so every
   theorem is about machines of either byte order.

## What is modelled and what is not

Modelled, function by function:

- `src/gxfile.cpp`, class `TGXFileObj`: all public functions except the ones listed below,
  and the private functions they use (`PrepareSymbolWrite`, `PrepareSymbolRead`, `DoWrite`,
  `DoRead`, `InitDoWrite`, `GetDefaultRecord`, `ReadPtr`-style decoding of one record,
  `AddError`, `AddToErrorListDomErrs`, `ResultWillBeSorted`, `IsGoodNewSymbol`,
  `WriteTrace`-free error handling, `CheckMode`, `AcronymRemap`), the label table
  `TUELTable`, filters, acronyms, the integer map `TIntegerMapping` and the bit sets.
- `src/gxfile.hpp` and `src/gdx.hpp`: the state.
- `src/gdlib/gmsstrm.cpp`: `TXStream`/`TBufferedFileStream`/`TMiBufferedStream` (strings,
  integers, doubles, packed numbers, byte order, passwords, blocks, compression).
- `src/gdlib/gmsdata.hpp`, `datastorage.hpp` (`TLinkedData`, its radix sort), `strhash.hpp`
  (hash lists with rehashing and renaming), `strutilx.cpp` (the string functions used),
  `dblutil.cpp` (classification of doubles).
- `src/tools/gdxmerge/gdxmerge.cpp`: collecting, sorting and writing the symbols, in all
  passes, the options ID, EXCLUDE and BIG (`Merge.v`); not acronyms, the search for files,
  the derivation of FileId from a file name, messages.
- `src/tools/gdxdump/gdxdump.cpp`: `WriteSymbolCSV` with `QQCSV`, `WrVal`, `GetUELAsString`
  and `GetUel4CSV` (`Dump.v`); not the text of a number, the other output formats and the
  command line.
- the same file: `WriteSymbol` with `WriteItem`, `WriteUEL`, `WriteQUELText`,
  `WriteComments` for Format=normal with NoHeader (DumpData.v)
- the same file: `WriteUELTable`, `WriteSymbolAsItem`, `WriteSymbolsAsSet` (DumpList.v), `WriteSetText`
  (DumpText.v), the declarations of `WriteSymbol` with NoData (DumpDecl.v),
  `WriteAcronyms` (DumpAcro.v), `WriteSymbolInfo` and `WriteDomainInfo` (DumpInfo.v); not Format=gamsbas
- `src/gxfile.cpp`: `errorCodeToStr` and `gdxErrorStr`, with `assignStrToBuf` of `src/gdlib/utils.hpp`
  (Messages.v); the texts of the operating system are a parameter
- `src/tools/gdxdiff/gdxdiff.cpp`: the comparison of two symbols and of two files
  (`CompareSy`, the loops of `main`).  The records of the two files are given as the lists
  that reading delivers (`C16_increasing` says that a mapped read delivers them in strictly
  increasing order); parsing of the command line, messages and the renaming of the
  temporary file are left out.

Not modelled:

- `gdxGetDLLVersion`, `gdxGetMemoryUsed`,
  `gdxAutoConvert`, `gdxSetTraceLevel` and trace output, the C wrappers and the code that
  loads the library, memory allocation (it never fails), threads (the library has none).
- `gdxOpenRead`/`gdxOpenWrite` are the Ex variants with fixed arguments; `gdxOpenReadXX` is
  modelled for reading and (inside `gdxOpenAppend`) for appending.
- Failing reads and writes of the operating system, except for crashes: `Crash.v` looks at
  the file after every prefix of the physical writes.
- Environment variables `GDXCONVERT` and `GDXCOMPRESS` (unset in the model).
- The build date in the audit line (a fixed text).
- `src/rtl`, `src/examples`, `src/tests`, `generated`, `src/tools` except the above.

Differences between model and code that are visible to a reader of the model:

- Hash tables are replaced in the state by the lists they implement; `StrHash.v` proves
  that the hash list implements the list operations for every history.  Bit sets are
  replaced by the list of their members, justified in `IntMap.v`.
- The state contains the ideal stream (bytes at positions) instead of the buffer;
  `BufStream.v` proves that the buffered stream refines it.
- Where the C++ leaves an output argument untouched, the answer of the model does not
  contain it.  Where the C++ reads an output argument before writing it (`gdxDataReadMap`
  after an out-of-range index) the model takes the caller's buffer as an argument.

## Findings

Behaviour of the code that contradicts a listed property, or that the theorems have to
exclude.  A name in parentheses is the theorem that shows it.

- `gdxUELRegisterMap` accepts a user number that another label already has; the two labels
  then share the number (`C15_two_labels_refuted`).
- `gdxAcronymAdd` does not look at symbol names, so an acronym can get the name of a symbol
  (`C49_disjoint_refuted`); adding an acronym again returns its number minus one.
- Calls that start or end reading or writing clear parts of the state before they check
  the mode, so a call that is refused can still end the symbol being read
  (`C27_*_refuted` theorems).
- A record is listed as an error record for a domain violation only if one of its violating
  indices has not been listed at that position before (stated in `C45_labels_refused`).
- A filter remembers whether its labels are in increasing order; a label that later gets a
  number the filter lets pass makes this wrong, and a filtered read then returns records
  out of order (`C16_shared_numbers_refuted`).
- A mapped read that streams returns the number of all records of the symbol as its count,
  one that sorts returns the number of records that pass; the first negates every
  offending index of a record it lists, the second only the first one.  Neither raises
  `gdxErrorCount` (`C17_selection` says all this).
- `gdxSymbolSetDomain` that fails leaves the domains it found in place (the statement of
  `C32` is about calls that succeed).
- `gdxDataReadSlice` with an unknown label leaves the slice mode; the next call is refused.
- Values of 1e301 and above are turned into acronyms; the payload of a NaN and the sign of
  minus zero are lost (`C04` and `C07` state the exact set).
- A string longer than 255 bytes given to the stream, an index outside the announced key
  bounds, negative indices in raw records, a negative number in `gdxUELRegisterMap`, and
  several range checks on acronym numbers that are always true lead to undefined behaviour
  or truncated data; the model answers `UB`, and the theorems' hypotheses (`call_ok`)
  exclude exactly these arguments.
- `gdxClose` writes the index only between symbols or while records are written.  After the
  start of a symbol and before its first record, or while labels or filters are registered,
  it leaves the whole file without an index, so that nothing of it can be read again
  (`C25_abandoned`, `C51_before_the_first_record_refuted`); so does `gdxFree` without
  `gdxClose` (`C25_freed_file`).  Opening a file shorter than its header is undefined behaviour.
- The index is not protected against a torn write: with the first 36 to 44 of its 52 bytes on
  the disk the file opens without an error and the domains are lost
  (`C25_torn_index_refuted`).
- The one-byte password mask leaves every L-th byte of the data in clear, L being the
  length of the password (the property proved, C42, is only that scrambling is undone).
- Appending: the bit maps of the sets of the old file are not rebuilt, so records added to a
  symbol whose domain is an old set are not checked against it; a file of the other byte
  order is continued in the byte order of the machine and can then not be opened any more
  (`C24_append_refuted`); the old index stays in place
  while the tables it points to are overwritten, so an interrupted append is not noticed as
  such; acronyms without a name get their saved names.
- gdxmerge compares the names of ID and EXCLUDE by case although names of symbols do not
  depend on it (`C56_names_by_case_refuted`).
- gdxmerge with BIG (`CollectBigOne`): the loop over the labels runs one too far (the bound
  counts the additional dimension): an empty label is registered, symbols of 18 and 19
  dimensions write outside the array; for a scalar the loop starts at -1; the explanatory
  texts get lost; dimension and type are not compared (`C56_big_refuted`,
  `C56_big_scalar_refuted`).
- gdxmerge identifies an input file by its base name: of two files with the same name
  records are refused as duplicates (`C56_same_file_name_refuted`).
- gdxdiff takes the default record of an equation from an array of seven rows at the type
  code of the file, which is 53 to 59: every comparison of equations reads outside of the
  array (`C52_equations_refuted`).  gdxdump has the same access but treats the codes first.
- gdxdiff with DiffOnly and a variable of 19 dimensions writes 21 labels into an array of 20;
  the check subtracts one instead of adding one (`C52_diffonly_refuted`).
- gdxdiff takes the type of a variable, and so its default record, from the first file only;
  swapping the files can change what is reported.  Minus infinity as an IEEE value (not the
  special value of GAMS) differs from itself (`C54_self_infinity_refuted`); plus infinity and
  NaN are undefined behaviour in `gdxAcronymName`.
- gdxdump names the columns of a table by the domains and compares a name with those before
  its neighbour only (`DD < D - 1`): p(i,i) gets two columns i (`C62_columns_refuted`).
- gdxdump with CDim=Y marks the columns in an array with an entry for each label; an index
  without a label, which raw writing accepts, is outside of it (`C62_index_refuted`).
- **An interrupted append loses the file, or mixes old and new tables.** gdxOpenAppend writes
  new records over the old tables, while the old index still points there. Stopped before the
  index is rewritten, the file can no longer be opened (`C63_nothing_is_lost_refuted`). A session
  that stores no symbol (it renames labels) writes the new tables over the old ones at the same
  place: stopped inside that write, the file opens and has one new label and one old label
  (`C63_old_or_new_refuted`).
- gdxdump with CDim=Y and no records writes a delimiter after the last name of the header.
  A period as delimiter is accepted although it is the decimal separator.  With tabs as
  delimiter nothing is quoted.  The listing of set texts leaves out the last symbol when it
  looks for the highest text (`C67_highest_refuted`).
- gdxdump writes the text of an element without quotes unless it contains a blank or one of
  `,;/$=*` or two periods; a text that begins with a quote is read back without it
  (`C65_quoted_text_refuted`), and one that begins with a period joins the index.
- gdxdump with NoData writes the first comment of a symbol behind its explanatory text, on the
  same line, so that it joins the text (`C68_comment_refuted`).  A logic equation is declared as
  an equation, because the stored type, which counts from 53, is compared with 6.
- gdxdump asks for the acronyms with the numbers 0 to count-1 instead of 1 to count: it writes
  `Acronym ;`, which is no statement, and leaves out the last acronym (`C69_acronyms_refuted`).
- gdxErrorStr copies the text without room for its end mark: if the text for a missing file
  has exactly 256 characters, one byte is written behind the caller's buffer; if it is longer,
  the buffer is left as it was and the call still answers 1 (`C72_long_name_refuted`).
- In the table of symbols of gdxdump the column of the type has four characters, and Alias has
  five: the lines of aliases are shifted (`C70_case_lines`).
- gdxdump looks up the default values of an equation with the stored type, which counts from
  53, in a table from 0 to 6: every equation is treated as =e=.  The bounds of equations are
  always shown, so nothing is lost.
- The message of gdxdump about labels that are missing is appended to the data.

## Assumptions of each theorem

What `Print Assumptions` lists for the theorems named in MANIFEST.json.

Closed under the global context (no axioms):

`C02_count_is_accepted`, `C06_set_special_values`, `C06_special_values_differ`, `C06_values_are_recognised`, `C07_limit_refuted`, `C07_own_numbers`, `C08_labels_handed_over`, `C10_dataset_sort_is_stable`, `C11_labels_are_a_dictionary`, `C11_labels_are_numbered`, `C11_labels_stay`, `C11_numbers_are_stable`, `C11_registering`, `C12_rename_effect`, `C12_renaming`, `C13_accepted_exactly`, `C13_bad_labels_are_refused`, `C13_label_check_is_exact`, `C13_labels_are_well_formed`, `C14_numbers_are_consecutive`, `C14_numbers_stay`, `C14_registering`, `C14_same_again`, `C15_accepted`, `C15_conflicts_are_refused`, `C15_one_number_per_label`, `C15_two_labels_refuted`, `C16_shared_numbers_refuted`, `C18_accepted_exactly`, `C18_defined_filters_exist`, `C18_domain_elements`, `C18_filter_is_what_was_registered`, `C18_only_defined_filters_exist`, `C18_refused_registrations`, `C19_integer_maps`, `C20_acronyms_are_found_again`, `C20_closed_files_open`, `C20_labels_are_found_again`, `C20_metadata_is_found_again`, `C20_texts_are_found_again`, `C22_compression_is_transparent`, `C23_buffering_is_transparent`, `C24_any_machine`, `C24_any_machine_calls`, `C24_append_refuted`, `C24_between_machines`, `C24_closing`, `C24_metadata`, `C24_model_of_reading`, `C24_opening`, `C24_opens`, `C24_values_in_either_order`, `C25_abandoned`, `C25_all_writes`, `C25_closing`, `C25_freed`, `C25_freed_file`, `C25_interrupted`, `C25_torn_index_refuted`, `C26_acronyms`, `C26_comments`, `C26_domain_names`, `C26_domains`, `C26_element_texts`, `C26_file_version`, `C26_has_text`, `C26_labels`, `C26_new_symbols`, `C26_opens`, `C26_symbol_texts`, `C26_symbols`, `C27_calls_out_of_order`, `C27_reading_while_writing_refuted`, `C27_starting_out_of_order_partial`, `C27_starting_out_of_order_refuted`, `C28_count_never_decreases`, `C28_errors_are_counted`, `C28_fetch`, `C28_first_error_is_kept`, `C28_opening_clears`, `C29_names_are_found`, `C29_names_are_identifiers`, `C29_names_are_unique`, `C29_only_named_calls_add`, `C29_starting_a_symbol`, `C29_symbols_stay`, `C30_adding_an_alias`, `C30_aliases_refer_back`, `C30_aliases_resolve`, `C30_reading_an_alias`, `C30_resolution_is_unique`, `C32_domains_after_reopening`, `C32_domains_stay`, `C32_relaxed_stays`, `C32_setting_a_domain`, `C32_setting_relaxed`, `C33_adding_a_text`, `C33_equal_texts_share`, `C33_texts_after_reopening`, `C33_texts_stay`, `C34_element_texts_are_safe`, `C34_explanatory_texts_are_safe`, `C34_starting_stores_the_text`, `C34_texts_are_made_safe`, `C34_texts_stay`, `C35_comments_are_found_again`, `C35_comments_are_kept`, `C37_fast_agrees`, `C37_fast_ex_agrees`, `C37_filt_agrees`, `C38_elements`, `C40_acronyms_after_reopening`, `C40_acronyms_are_unique`, `C40_acronyms_stay`, `C40_adding_an_acronym`, `C40_mixed_numbers_refuted`, `C40_numbers_stay`, `C40_one_to_one`, `C41_outside_refuted`, `C41_packed_doubles`, `C41_packed_integers`, `C41_packed_specials`, `C42_password_is_transparent`, `C43_strings`, `C44_bit_sets`, `C44_clear_refuted`, `C46_index_widths`, `C46_label_width`, `C46_name_width`, `C47_enumeration`, `C48_append`, `C48_marks`, `C48_opened`, `C49_disjoint_partial`, `C49_disjoint_refuted`, `C50_other_files_stay`, `C50_reading_changes_nothing`, `C51_before_the_first_record_refuted`, `C51_close_completes_the_symbol`, `C51_closed`, `C52_changes`, `C52_diffonly_refuted`, `C52_equations_refuted`, `C52_wide`, `C54_no_differences`, `C54_self_infinity_refuted`, `C55_in_order`, `C56_all_selected`, `C56_big_refuted`, `C56_big_scalar_refuted`, `C56_names_by_case_refuted`, `C56_same_file_name_refuted`, `C56_selection`, `C57_closed`, `C57_error_records`, `C57_file_read`, `C57_file_stays`, `C57_labels`, `C57_new_file`, `C57_switches`, `C57_symbols`, `C62_columns_refuted`, `C62_index_refuted`, `C63_closing_partial`, `C63_interrupted_append_partial`, `C63_nothing_is_lost_refuted`, `C63_old_or_new_refuted`, `C65_quoted_text_refuted`, `C66_domains`, `C66_labels`, `C66_symbols`, `C67_count`, `C67_highest_refuted`, `C67_texts`, `C68_alias`, `C68_comment_refuted`, `C68_declaration`, `C69_acronyms_partial`, `C69_acronyms_refuted`, `C69_name_refuted`, `C69_none`, `C70_domains`, `C70_symbols`, `C71_reading`, `C71_writing`, `C72_errors_have_messages`, `C72_long_name_refuted`, `C72_messages_differ`, `C72_missing_file_partial`, `C72_opening_errors_have_messages`.

Axioms `ClassicalDedekindReals.sig_forall_dec`, `ClassicalDedekindReals.sig_not_dec`, `Classical_Prop.classic`, `FunctionalExtensionality.functional_extensionality_dep`:

`C01_after_opening`, `C01_after_reading`, `C01_empty_scalar`, `C01_raw_round_trip`, `C02_accepted_exactly`, `C03_first_change`, `C04_numbers_survive`, `C05_machine_values`, `C05_special_values_are_translated`, `C07_acronym_numbers_survive`, `C07_acronyms_survive`, `C07_values`, `C08_refused_are_counted`, `C08_strings_come_back`, `C09_user_numbers_come_back`, `C16_increasing`, `C17_selection`, `C17_selection_can_be_read`, `C21_independent_of_the_rest`, `C24_records`, `C26_record_counts`, `C26_records`, `C26_string_records`, `C31_labels_are_checked`, `C31_raw_indices_are_checked`, `C31_user_numbers_are_checked`, `C36_slices`, `C37_callback_reads_end`, `C39_universe`, `C39_universe_labels`, `C40_translation`, `C41_packed_acronyms`, `C45_labels_refused`, `C45_raw_refused`, `C45_user_numbers_refused`, `C53_close_enough`, `C53_files_swapped`, `C53_looser`, `C53_reflexive`, `C53_same_number`, `C53_symmetric`, `C53_tolerance`, `C54_self`, `C55_merged`, `C57_acronym_names`, `C58_labels`, `C58_nothing_is_refused`, `C58_user_numbers`, `C59_file_names`, `C59_file_names_read`, `C59_merged_file`, `C59_merged_file_read`, `C60_csv`, `C61_table`, `C62_columns_partial`, `C64_has_text`, `C65_data_partial`.
