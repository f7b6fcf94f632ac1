{"id": "C01", "title": "Raw write then raw read returns the same records", "statement": "If a symbol of any dimension and type is written with gdxDataWriteRawStart / gdxDataWriteRaw / gdxDataWriteDone, then a later gdxDataReadRawStart / gdxDataReadRaw of that symbol returns exactly the accepted records, with the same index vectors, in the same order, followed by end of data.", "quantifier": "every dimension 0..20, every data type, every finite sequence of records with non-negative strictly increasing index vectors and arbitrary 64-bit values", "why_tests_cant": "the record coding switches between a delta form, a truncated form and 1/2/4-byte index forms depending on the previous record and on the index bounds; only an induction over the record sequence covers all switches", "anchors": ["src/gxfile.cpp:gdxDataWriteRaw", "src/gxfile.cpp:DoWrite", "src/gxfile.cpp:DoRead", "src/gxfile.cpp:gdxDataReadRaw"]}
{"id": "C02", "title": "Raw writes accept exactly the strictly increasing records", "statement": "In raw write mode a record with indices that are not negative is accepted exactly when its index vector is lexicographically greater than that of the last accepted record and it is in the domains of the symbol. A refused record returns 0, raises an error and leaves no trace in the data that is later read. The number of records reported by gdxSymbolInfoX for a symbol with indices is the number of accepted records.", "quantifier": "every sequence of gdxDataWriteRaw calls, sorted or not, with or without duplicates", "why_tests_cant": "a test checks a few unsorted sequences, the claim is about every history", "anchors": ["src/gxfile.cpp:DoWrite", "src/gxfile.cpp:gdxDataWriteRaw", "src/gxfile.cpp:gdxSymbolInfoX"]}
{"id": "C03", "title": "First-changed-dimension is correct on raw reads", "statement": "For every record returned by gdxDataReadRaw, DimFrst is the position of the first index that differs from the previously returned record, and 1 for the first record of a symbol of dimension one or more.", "quantifier": "every symbol written with non-negative increasing index vectors, every record of it", "why_tests_cant": "the value is derived from the record coding form, so it depends on the whole preceding record sequence", "anchors": ["src/gxfile.cpp:DoRead", "src/gxfile.cpp:gdxDataReadRaw"]}
{"id": "C04", "title": "Ordinary numbers survive bit for bit", "statement": "A value that is not one of the current special values, is not zero with a sign bit, is not a NaN and is smaller than 1e301 comes back with the identical 64-bit pattern.", "quantifier": "every 64-bit pattern in that set, for every value field of every record", "why_tests_cant": "there are 2^64 patterns", "anchors": ["src/gxfile.cpp:DoWrite", "src/gxfile.cpp:DoRead", "src/gxfile.cpp:dblToI64"]}
{"id": "C05", "title": "Special values are translated between writer and reader conventions", "statement": "With the special-value table (UNDEF, NA, +INF, -INF, EPS) set by the writer with gdxSetSpecialValues and the one set by the reader with gdxSetReadSpecialValues, a value equal to the writer's k-th special value is returned as the reader's k-th special value.", "quantifier": "every pair of tables accepted by the API and every special value", "why_tests_cant": "the tables are arbitrary user data; tests use the default table", "anchors": ["src/gxfile.cpp:gdxSetSpecialValues", "src/gxfile.cpp:gdxSetReadSpecialValues", "src/gxfile.cpp:DoWrite", "src/gxfile.cpp:DoRead"]}
{"id": "C06", "title": "Special-value tables are kept free of ambiguity", "statement": "gdxSetSpecialValues rejects a table in which two of the special values coincide and leaves the current table unchanged in that case; whenever it succeeds the current table maps each special value to a distinct marker.", "quantifier": "every candidate table and every previous table", "why_tests_cant": "the claim ranges over all tables and needs a no-change argument on the failing path", "anchors": ["src/gxfile.cpp:gdxSetSpecialValues", "src/gxfile.cpp:gdxGetSpecialValues", "src/gxfile.cpp:gdxResetSpecialValues"]}
{"id": "C07", "title": "Acronym values keep their index", "statement": "A value made by gdxAcronymValue for index n is recognised by gdxAcronymIndex as n, and a value written as acronym n is returned as acronym n when the file is read back with the same acronym numbering.", "quantifier": "every index n in 1..2^31-1 (or the largest range for which it is true)", "why_tests_cant": "involves IEEE rounding of n*1e301 and of the division back, for every n", "anchors": ["src/gxfile.cpp:gdxAcronymValue", "src/gxfile.cpp:gdxAcronymIndex", "src/gxfile.cpp:AcronymRemap", "src/gxfile.cpp:DoRead"]}
{"id": "C08", "title": "String writes come back sorted, complete and without duplicates", "statement": "Records written with gdxDataWriteStr in any order are, after gdxDataWriteDone, read back with gdxDataReadStr in increasing order of the label numbers; each distinct index tuple occurs once, with the values of its first occurrence; each later duplicate is reported by the error count.", "quantifier": "every sequence of gdxDataWriteStr calls with valid labels, every dimension", "why_tests_cant": "requires correctness of the in-memory sort for every input order and the duplicate detection for every multiplicity", "anchors": ["src/gxfile.cpp:gdxDataWriteStr", "src/gxfile.cpp:gdxDataWriteDone", "src/gxfile.cpp:DoWrite", "src/gdlib/datastorage.hpp:TLinkedData::Sort"]}
{"id": "C09", "title": "Mapped writes and mapped reads are inverse", "statement": "Records written with gdxDataWriteMap in user numbers are read with gdxDataReadMap, after the same label registration, as the same records in user numbers, in increasing order of the user numbers.", "quantifier": "every registration of labels and every sequence of mapped records with distinct index tuples", "why_tests_cant": "depends on the history of label registration and on the sort", "anchors": ["src/gxfile.cpp:gdxDataWriteMap", "src/gxfile.cpp:gdxDataReadMap", "src/gxfile.cpp:PrepareSymbolRead"]}
{"id": "C10", "title": "Dataset order sorting is a stable sort", "statement": "The order in which buffered records are written is the stable lexicographic sort of the order in which they were supplied: a permutation of the input, in non-decreasing index order, with equal index tuples in their order of arrival.", "quantifier": "every list of index tuples of every dimension", "why_tests_cant": "all input lists", "anchors": ["src/gdlib/datastorage.hpp:TLinkedData::Sort", "src/gdlib/datastorage.hpp:TLinkedData::IsSorted", "src/gdlib/datastorage.hpp:TLinkedData::AddItem"]}
{"id": "C11", "title": "Labels are a case-insensitive dictionary with stable numbers", "statement": "After any sequence of label registrations, each label has exactly one number, numbers are 1..n in order of first registration, looking up any label in any letter case returns its number and looking up any other label fails; registering further labels never changes the number of an existing one.", "quantifier": "every sequence of registrations, lookups and renames, of any length", "why_tests_cant": "the table is rehashed at fixed growth points and chains depend on all previous labels", "anchors": ["src/gdlib/strhash.hpp:TXStrHashList::AddObject", "src/gdlib/strhash.hpp:TXStrHashList::IndexOf", "src/gdlib/strhash.hpp:HashAll", "src/gxfile.cpp:gdxUELRegisterStr"]}
{"id": "C12", "title": "Renaming a label keeps the dictionary consistent", "statement": "gdxRenameUEL succeeds exactly when the old label exists and the new one is valid and not in use. Afterwards the new label has the old label's number, the old label is unknown, and all other labels are unaffected.", "quantifier": "every label table reachable by registrations and renames, every pair of labels", "why_tests_cant": "the relinking of hash chains depends on the entire history", "anchors": ["src/gxfile.cpp:gdxRenameUEL", "src/gdlib/strhash.hpp:RenameEntry"]}
{"id": "C13", "title": "Only well-formed labels enter the table", "statement": "Every label registered through the write interface has at most 63 characters, contains no character below 32 and not both kinds of quotes, and has no trailing blanks; a label violating the first two rules is refused with an error and changes nothing.", "quantifier": "every string and every history", "why_tests_cant": "all strings", "anchors": ["src/gxfile.cpp:GoodUELString", "src/gxfile.cpp:CanBeQuoted", "src/gxfile.cpp:gdxUELRegisterRaw", "src/gxfile.cpp:gdxUELRegisterStr", "src/gxfile.cpp:gdxUELRegisterMap"]}
{"id": "C14", "title": "User label numbers and labels are in one-to-one correspondence", "statement": "Labels registered with gdxUELRegisterStr get consecutive user numbers; gdxGetUEL of a user number returns the label that was given that number, gdxUMUelGet and gdxUMFindUEL agree with it, and registering the same label again returns the same user number.", "quantifier": "every sequence of gdxUELRegisterStr / gdxUELRegisterMap calls", "why_tests_cant": "the map has to be one-to-one after every history", "anchors": ["src/gxfile.cpp:gdxUELRegisterStr", "src/gxfile.cpp:gdxUELRegisterMap", "src/gxfile.cpp:gdxGetUEL", "src/gxfile.cpp:gdxUMFindUEL", "src/gxfile.cpp:TUELTable"]}
{"id": "C15", "title": "Conflicting user numbers are refused", "statement": "gdxUELRegisterMap never leaves one label with two user numbers or two labels with one user number: an attempt to do so returns 0 and leaves the map unchanged.", "quantifier": "every sequence of gdxUELRegisterMap calls", "why_tests_cant": "all histories", "anchors": ["src/gxfile.cpp:gdxUELRegisterMap", "src/gxfile.cpp:AddUsrIndxNew"]}
{"id": "C16", "title": "Sortedness of the user map is tracked correctly", "statement": "The records that a mapped or filtered read returns are in increasing order of the indices shown, also when the library decides to stream them in file order instead of sorting them. For a filtered read this needs that no two labels share a user number (otherwise a filter that was defined earlier may be taken for ordered).", "quantifier": "every label map history and every symbol", "why_tests_cant": "the decision uses a cached status that must be right after every history", "anchors": ["src/gxfile.cpp:GetMapToUserStatus", "src/gxfile.cpp:ResultWillBeSorted", "src/gxfile.cpp:PrepareSymbolRead"]}
{"id": "C17", "title": "Filtered reads return exactly the matching records", "statement": "gdxDataReadFilteredStart (and gdxDataReadMapStart) followed by gdxDataReadMap returns exactly the records all of whose indices can be shown as requested for their dimension (a user number, a user number passing the filter, or the index as stored), each once, in increasing order; the other records are listed as error records, with the offending indices (or the first of them) negated, if one of these has not been listed at its position, up to the limit of eleven.", "quantifier": "every filter set, every label map, every symbol", "why_tests_cant": "exhaustive over data, filter and map", "anchors": ["src/gxfile.cpp:gdxDataReadFilteredStart", "src/gxfile.cpp:gdxDataReadMap", "src/gxfile.cpp:PrepareSymbolRead"]}
{"id": "C18", "title": "Filter registration", "statement": "A filter built by gdxFilterRegisterStart / gdxFilterRegister / gdxFilterRegisterDone contains exactly the registered user numbers; registering an unmapped or out-of-range number is refused and changes nothing; gdxFilterExists tells whether a filter number was defined.", "quantifier": "every sequence of filter registration calls", "why_tests_cant": "all histories", "anchors": ["src/gxfile.cpp:gdxFilterRegisterStart", "src/gxfile.cpp:gdxFilterRegister", "src/gxfile.cpp:gdxFilterRegisterDone", "src/gxfile.cpp:TFilterList", "src/gdlib/gmsobj.hpp:TBooleanBitArray"]}
{"id": "C19", "title": "Label maps are total functions with a default", "statement": "The integer map behind user numbers returns, for every index, the last value stored under that index, or the not-mapped value if none was stored, whatever growth steps happened in between.", "quantifier": "every sequence of stores at non-negative indices and every lookup", "why_tests_cant": "growth steps depend on the whole history and on index magnitude", "anchors": ["src/gxfile.cpp:TIntegerMapping", "src/gxfile.cpp:growMapping"]}
{"id": "C20", "title": "Everything written is found again after closing and reopening", "statement": "After any sequence of write calls followed by gdxClose, opening the file for reading reports the same symbols (name, dimension, type, record count, user info, explanatory text), labels, element texts, acronyms, aliases, domains and comments, in the same order.", "quantifier": "every finite write history, compressed or not", "why_tests_cant": "unbounded histories; the layout of every later section depends on all earlier ones", "anchors": ["src/gxfile.cpp:gdxClose", "src/gxfile.cpp:gdxOpenReadXX", "src/gxfile.cpp:gdxSystemInfo", "src/gxfile.cpp:gdxSymbolInfo"]}
{"id": "C21", "title": "Data of every symbol is found again after closing and reopening", "statement": "After any write history followed by gdxClose and gdxOpenRead, reading symbol k returns exactly the records accepted for symbol k, independently of all other symbols in the file.", "quantifier": "every number of symbols and records, every order of writing", "why_tests_cant": "positions of data blocks depend on all preceding writes", "anchors": ["src/gxfile.cpp:PrepareSymbolWrite", "src/gxfile.cpp:gdxDataWriteDone", "src/gxfile.cpp:gdxClose", "src/gxfile.cpp:PrepareSymbolRead"]}
{"id": "C22", "title": "Compression is transparent", "statement": "A byte sequence written through the file stream with compression on, in any division into writes, is returned unchanged by reading it with compression on from the same position, provided the compression library's uncompress inverts its compress.", "quantifier": "every byte sequence, every division into write and read calls, every compressor behaviour satisfying the inverse law", "why_tests_cant": "block boundaries depend on all preceding write sizes", "anchors": ["src/gdlib/gmsstrm.cpp:TBufferedFileStream::FlushBuffer", "src/gdlib/gmsstrm.cpp:FillBuffer", "src/gdlib/gmsstrm.cpp:Read", "src/gdlib/gmsstrm.cpp:Write"]}
{"id": "C23", "title": "Buffering is transparent", "statement": "With compression off, any interleaving of reads, writes, seeks and position queries on the buffered file stream returns the same results and leaves the same file as the same calls on an unbuffered random-access file.", "quantifier": "every sequence of stream operations of any length and size", "why_tests_cant": "all interleavings", "anchors": ["src/gdlib/gmsstrm.cpp:TBufferedFileStream", "src/gdlib/gmsstrm.cpp:SetPosition", "src/gdlib/gmsstrm.cpp:GetPosition", "src/gdlib/gmsstrm.cpp:Read", "src/gdlib/gmsstrm.cpp:Write"]}
{"id": "C24", "title": "Foreign byte order is read correctly", "statement": "Integers, words, 64-bit integers and doubles written on a machine of either byte order are read back as the same values, once the reader has read the type preamble of the file.", "quantifier": "every value and both byte orders", "why_tests_cant": "no test machine has the other byte order; all values", "anchors": ["src/gdlib/gmsstrm.cpp:TMiBufferedStream", "src/gdlib/gmsstrm.cpp:reverseBytesMax8", "src/gdlib/gmsstrm.hpp:ReadValueOrdered", "src/gdlib/gmsstrm.hpp:initOrderCommon"]}
{"id": "C25", "title": "An unfinished file is never taken for a complete one", "statement": "If the process that writes a new file stops at any moment before the last write made by gdxClose (the index) begins, no later gdxOpenRead or gdxOpenAppend of the file succeeds; once the header is on the disk, opening it to read reports that the index is missing. The writes reach the disk in the order in which they are made, and the one that is interrupted may be there in part.", "quantifier": "every history of writing calls and every crash point, also inside a write, in the sequence of physical writes the buffered stream makes for it", "why_tests_cant": "all crash points of all histories", "anchors": ["src/gxfile.cpp:gdxOpenWriteEx", "src/gxfile.cpp:gdxClose", "src/gxfile.cpp:gdxOpenReadXX"]}
{"id": "C26", "title": "Appending keeps the existing contents", "statement": "After gdxOpenAppend of a valid file, further writes and gdxClose, every symbol, label and record of the original file is still there with unchanged numbers, followed by the new ones.", "quantifier": "every original file written by the library and every sequence of appended symbols", "why_tests_cant": "the append writes over the old index sections; correctness depends on all positions", "anchors": ["src/gxfile.cpp:gdxOpenAppend", "src/gxfile.cpp:gdxClose", "src/gxfile.cpp:PrepareSymbolWrite"]}
{"id": "C27", "title": "Calls out of order are refused and harmless", "statement": "A call to a data transfer function in a mode in which it is not allowed returns 0, sets the bad-mode error and changes neither the stored data nor the mode.", "quantifier": "every reachable library state and every API call", "why_tests_cant": "product of states and calls", "anchors": ["src/gxfile.cpp:CheckMode", "src/gxfile.cpp:MajorCheckMode", "src/gxfile.cpp:ErrorCondition"]}
{"id": "C28", "title": "The last error is sticky until it is fetched", "statement": "gdxGetLastError returns the first error since the previous fetch (with file errors taking precedence) and clears it; gdxErrorCount counts all errors since the file was opened and never decreases while it is open.", "quantifier": "every sequence of API calls", "why_tests_cant": "all histories", "anchors": ["src/gxfile.cpp:SetError", "src/gxfile.cpp:gdxGetLastError", "src/gxfile.cpp:gdxErrorCount", "src/gxfile.cpp:InitErrors"]}
{"id": "C29", "title": "Symbol names are unique and valid identifiers", "statement": "After any write history the symbol names are pairwise different ignoring case and are identifiers of at most 63 characters; an attempt to start a symbol whose name is not such an identifier, is a symbol's already or is an acronym's is refused and adds nothing; gdxFindSymbol finds exactly the names in the table.", "quantifier": "every write history", "why_tests_cant": "all histories", "anchors": ["src/gxfile.cpp:IsGoodNewSymbol", "src/gxfile.cpp:IsGoodIdent", "src/gxfile.cpp:PrepareSymbolWrite", "src/gxfile.cpp:gdxAddAlias"]}
{"id": "C30", "title": "Aliases resolve to their set", "statement": "An alias added with gdxAddAlias refers to an existing set or to the universe; reading an alias returns the records of that set; resolving aliases always terminates for files written by the library.", "quantifier": "every write history with aliases of aliases in any order", "why_tests_cant": "all alias graphs", "anchors": ["src/gxfile.cpp:gdxAddAlias", "src/gxfile.cpp:PrepareSymbolRead"]}
{"id": "C31", "title": "Domain checking", "statement": "When a symbol has a domain set by gdxSymbolSetDomain, a record written in raw, mapped or string mode is accepted only if each of its elements belongs to the corresponding one-dimensional set; a record that does not is counted as an error and is not among the records read back.", "quantifier": "every domain assignment and every sequence of records", "why_tests_cant": "all data", "anchors": ["src/gxfile.cpp:gdxSymbolSetDomain", "src/gxfile.cpp:DoWrite", "src/gxfile.cpp:gdxAddToErrorListDomErrs"]}
{"id": "C32", "title": "Domain information is preserved", "statement": "gdxSymbolGetDomain / gdxSymbolGetDomainX return what was set with gdxSymbolSetDomain / gdxSymbolSetDomainX, before and after closing and reopening the file.", "quantifier": "every assignment of domains to symbols", "why_tests_cant": "all histories; domain strings are stored in a shared table", "anchors": ["src/gxfile.cpp:gdxSymbolSetDomain", "src/gxfile.cpp:gdxSymbolSetDomainX", "src/gxfile.cpp:gdxSymbolGetDomain", "src/gxfile.cpp:gdxSymbolGetDomainX", "src/gxfile.cpp:gdxClose", "src/gxfile.cpp:gdxOpenReadXX"]}
{"id": "C33", "title": "Element texts", "statement": "gdxAddSetText returns a number under which gdxGetElemText returns the text (after the documented clean-up), and equal texts may share a number; after reopening, the number stored in a set record still leads to the same text.", "quantifier": "every sequence of texts", "why_tests_cant": "all histories", "anchors": ["src/gxfile.cpp:gdxAddSetText", "src/gxfile.cpp:gdxGetElemText", "src/gxfile.cpp:gdxSetTextNodeNr"]}
{"id": "C34", "title": "Explanatory texts are made safe", "statement": "Every explanatory text stored in a file has no control characters, has at most 255 characters and does not contain both kinds of quotes; a text that already satisfies this is stored unchanged.", "quantifier": "every string", "why_tests_cant": "all strings", "anchors": ["src/gxfile.cpp:MakeGoodExplText", "src/gxfile.cpp:assignExplanatoryText", "src/gxfile.cpp:gdxAddSetText"]}
{"id": "C35", "title": "Comments are kept in order", "statement": "Comments added with gdxSymbolAddComment are returned by gdxSymbolGetComment in the same order for the same symbol, before and after reopening.", "quantifier": "every sequence of comments for every set of symbols", "why_tests_cant": "all histories", "anchors": ["src/gxfile.cpp:gdxSymbolAddComment", "src/gxfile.cpp:gdxSymbolGetComment", "src/gxfile.cpp:gdxClose", "src/gxfile.cpp:gdxOpenReadXX"]}
{"id": "C36", "title": "Slice reads select exactly the matching records", "statement": "gdxDataReadSlice with a vector of labels (empty = free) reports exactly the records that agree with the fixed labels, with the free positions renumbered one-to-one; gdxDataSliceUELS maps the renumbered positions back to the labels.", "quantifier": "every symbol and every slice vector", "why_tests_cant": "all data and slices", "anchors": ["src/gxfile.cpp:gdxDataReadSliceStart", "src/gxfile.cpp:gdxDataReadSlice", "src/gxfile.cpp:gdxDataSliceUELS"]}
{"id": "C37", "title": "Callback reads agree with record-by-record reads", "statement": "gdxDataReadRawFast and gdxDataReadRawFastEx call the user function with the same records in the same order as gdxDataReadRaw returns them; gdxDataReadRawFastFilt with those that match its filter.", "quantifier": "every symbol, every callback, every stop point", "why_tests_cant": "all data", "anchors": ["src/gxfile.cpp:gdxDataReadRawFast", "src/gxfile.cpp:gdxDataReadRawFastEx", "src/gxfile.cpp:gdxDataReadRawFastFilt"]}
{"id": "C38", "title": "Domain element enumeration is exact", "statement": "gdxGetDomainElements returns the number of distinct labels used at a given index position of a symbol and reports each of them.", "quantifier": "every symbol, position and filter", "why_tests_cant": "all data", "anchors": ["src/gxfile.cpp:gdxGetDomainElements"]}
{"id": "C39", "title": "The universe symbol lists all labels", "statement": "Reading symbol 0 returns one record per label of the file, numbered 1..n in order.", "quantifier": "every file", "why_tests_cant": "all files", "anchors": ["src/gxfile.cpp:PrepareSymbolRead", "src/gxfile.cpp:gdxDataReadRaw", "src/gxfile.cpp:gdxDataReadStr"]}
{"id": "C40", "title": "Acronym tables", "statement": "gdxAcronymAdd keeps acronym names unique, its index is found again by gdxAcronymGetInfo after reopening, and acronym numbers used by the file are translated to the reader's numbering consistently (one-to-one).", "quantifier": "every sequence of acronym definitions and every file", "why_tests_cant": "all histories", "anchors": ["src/gxfile.cpp:gdxAcronymAdd", "src/gxfile.cpp:gdxAcronymSetInfo", "src/gxfile.cpp:gdxAcronymGetInfo", "src/gxfile.cpp:AcronymRemap", "src/gxfile.cpp:TAcronymList"]}
{"id": "C41", "title": "Packed numbers decode to what was packed", "statement": "The variable-length integer and double formats of the stream layer decode to the value that was encoded, for all integers (except the most negative one) and all doubles outside the special-value window.", "quantifier": "all 32-bit integers, all 64-bit patterns", "why_tests_cant": "2^32 + 2^64 cases", "anchors": ["src/gdlib/gmsstrm.cpp:WriteGmsInteger", "src/gdlib/gmsstrm.cpp:ReadGmsInteger", "src/gdlib/gmsstrm.cpp:WriteGmsDouble", "src/gdlib/gmsstrm.cpp:ReadGmsDouble"]}
{"id": "C42", "title": "Password scrambling is its own inverse at every position", "statement": "With the same password set, bytes written at any file position are read back unchanged, however the reads and writes are divided.", "quantifier": "every password, byte sequence, position and division", "why_tests_cant": "all of them", "anchors": ["src/gdlib/gmsstrm.cpp:SetPassWord", "src/gdlib/gmsstrm.cpp:ApplyPassWord", "src/gdlib/gmsstrm.cpp:RandString", "src/gdlib/gmsstrm.cpp:TXFileStream::Read", "src/gdlib/gmsstrm.cpp:TXFileStream::Write"]}
{"id": "C43", "title": "Strings in the stream format", "statement": "A string of at most 255 bytes written with WriteString is returned by ReadString, and the reader is left just behind it.", "quantifier": "every string and every following content", "why_tests_cant": "all strings", "anchors": ["src/gdlib/gmsstrm.cpp:TXStream::WriteString", "src/gdlib/gmsstrm.cpp:TXStream::ReadString", "src/gdlib/gmsstrm.cpp:ReadSString"]}
{"id": "C44", "title": "Element bit sets", "statement": "The growing bit array used for filters and domain checks answers membership exactly: an index is reported as set exactly if it was set before.", "quantifier": "every sequence of set operations and queries", "why_tests_cant": "all histories; growth and bit addressing", "anchors": ["src/gdlib/gmsobj.hpp:TBooleanBitArray"]}
{"id": "C45", "title": "Error records", "statement": "gdxDataErrorCount / gdxDataErrorRecordX give the records that were refused while a symbol was written, up to the limit of eleven: in the order of the calls when written with raw indices, in the order of the indices when written with labels or user numbers. A record outside the domains is shown with the offending indices negated, and only if one of these has not been listed at its position. A mapped or filtered read lists the records it leaves out.", "quantifier": "every history", "why_tests_cant": "all data", "anchors": ["src/gxfile.cpp:AddToErrorList", "src/gxfile.cpp:gdxDataErrorCount", "src/gxfile.cpp:gdxDataErrorRecord", "src/gxfile.cpp:gdxDataErrorRecordX"]}
{"id": "C46", "title": "Widths reported are upper bounds that are attained", "statement": "gdxUELMaxLength, gdxSymbMaxLength and gdxSymbIndxMaxLength return the maximum length over the labels, symbol names, and labels per index position that occur in the data.", "quantifier": "every file and symbol", "why_tests_cant": "all data", "anchors": ["src/gxfile.cpp:gdxUELMaxLength", "src/gxfile.cpp:gdxSymbMaxLength", "src/gxfile.cpp:gdxSymbIndxMaxLength"]}
{"id": "C47", "title": "Label counts and conversion between file and user numbering", "statement": "gdxUMUelInfo reports the number of labels and the highest user number, gdxUMUelGet enumerates all labels with their user numbers, and the enumeration is consistent with lookups.", "quantifier": "every label history", "why_tests_cant": "all histories", "anchors": ["src/gxfile.cpp:gdxUMUelInfo", "src/gxfile.cpp:gdxUMUelGet", "src/gxfile.cpp:gdxUMFindUEL"]}
{"id": "C48", "title": "Corrupted section marks are detected", "statement": "Opening a file whose index, symbol, text, label, acronym or domain section does not start and end with its mark fails with the error of that section.", "quantifier": "every byte string in place of the file", "why_tests_cant": "all byte strings", "anchors": ["src/gxfile.cpp:gdxOpenReadXX"]}
{"id": "C49", "title": "Symbol names and acronym names differ", "statement": "After any write history no acronym has the name of a symbol, ignoring case.", "quantifier": "every write history", "why_tests_cant": "all histories", "anchors": ["src/gxfile.cpp:IsGoodNewSymbol", "src/gxfile.cpp:gdxAcronymAdd", "src/gxfile.cpp:gdxAcronymSetInfo"]}
{"id": "C50", "title": "Only files that are opened for writing change", "statement": "A file whose name is never given to gdxOpenWriteEx or gdxOpenAppend has the same content (or absence) after any calls as before; in particular reading, closing and freeing never change a file.", "quantifier": "every finite history of calls, every file name, every content of the disk", "why_tests_cant": "all histories, including closing and freeing in any state and failed opens", "anchors": ["src/gxfile.cpp:gdxClose", "src/gxfile.cpp:gdxOpenReadXX", "src/gxfile.cpp:gdxOpenAppend", "src/gxfile.cpp:~TGXFileObj"]}
{"id": "C51", "title": "gdxClose completes what was begun", "statement": "Calling gdxClose while the records of a symbol are being written has the effect of gdxDataWriteDone followed by gdxClose; after gdxClose the object is not open and has no file, and closing it again changes nothing and returns 1.", "quantifier": "every state of the object", "why_tests_cant": "all states", "anchors": ["src/gxfile.cpp:gdxClose", "src/gxfile.cpp:gdxDataWriteDone"]}
{"id": "C52", "title": "gdxdiff reports exactly the changed records", "statement": "For two sets, parameters or variables of the same dimension (below 20, below 19 with DiffOnly) the file of differences gets, in increasing order, exactly the records that only one file has (ins1, ins2), except records with default values unless CmpDefaults is given, and both versions (dif1, dif2) of the records that differ in a compared field; the symbol is not written at all if there is no such record, and is completed otherwise.  Symbols of dimension 20 are only reported.", "quantifier": "all lists of records in increasing order, all options, all label tables and both files' special values, acronyms and texts", "why_tests_cant": "all record lists and option combinations", "anchors": ["src/tools/gdxdiff/gdxdiff.cpp:CompareSy", "src/tools/gdxdiff/gdxdiff.cpp:ShowInsert", "src/tools/gdxdiff/gdxdiff.cpp:CheckParDifference", "src/tools/gdxdiff/gdxdiff.cpp:CheckSetDifference"]}
{"id": "C53", "title": "gdxdiff's comparison of numbers", "statement": "Without tolerances two numbers count as equal exactly if they are the same number; with an absolute tolerance alone exactly if their rounded distance is at most the tolerance; a number is equal to itself, the order of the files does not matter, and larger tolerances keep numbers equal.", "quantifier": "all finite doubles, all tolerances", "why_tests_cant": "all pairs of doubles, with rounding and overflow of the difference", "anchors": ["src/tools/gdxdiff/gdxdiff.cpp:DoublesEqual"]}
{"id": "C54", "title": "gdxdiff reports no differences exactly if there are none", "statement": "The summary of differences is empty exactly if every selected symbol of either file is in the other under the same name up to case, with the same type (an alias being a set), dimension and, if asked for, domains, and no record counts as a change.  A symbol of numbers, acronyms, special values and texts compared with itself is reported as the same and nothing is written.", "quantifier": "all pairs of files, all options and selections", "why_tests_cant": "all pairs of files", "anchors": ["src/tools/gdxdiff/gdxdiff.cpp:main", "src/tools/gdxdiff/gdxdiff.cpp:CompareSy"]}
{"id": "C55", "title": "gdxmerge puts every record of every file into the output", "statement": "Without BIG, gdxmerge writes one symbol per symbol name occurring in the input files (up to case, fewer than 20 dimensions, selected by the options), with the name, type and subtype of its first occurrence, one dimension more and the first explanatory text that is not empty.  Its records are exactly the records of all symbols of that name with the same dimension and type (an alias being a set; variables and equations also of the same subtype), each with the name of its file before its labels, with the values that were read, element texts included; they are written in the order of their indices, strictly increasing if no two records name the same file and labels.  The indices stand for these labels in the output file.  Nothing else is written but a set of the file names.", "quantifier": "all lists of input files, all options without BIG", "why_tests_cant": "all numbers of files, symbols, records and labels, in every order", "anchors": ["src/tools/gdxmerge/gdxmerge.cpp:SymbolList::AddPGXFile", "src/tools/gdxmerge/gdxmerge.cpp:SymbolList::WritePGXFile", "src/tools/gdxmerge/gdxmerge.cpp:SymbolList::WriteNameList", "src/tools/gdxmerge/gdxmerge.cpp:main"]}
{"id": "C56", "title": "The options of gdxmerge", "statement": "ID and EXCLUDE select symbols by name, names being compared as everywhere in the library; BIG changes how the work is done but not what is written; input files are told apart.", "quantifier": "all lists of input files and options", "why_tests_cant": "all names and all sizes of symbols", "anchors": ["src/tools/gdxmerge/gdxmerge.cpp:SymbolList::AddSymbol", "src/tools/gdxmerge/gdxmerge.cpp:SymbolList::CollectBigOne", "src/tools/gdxmerge/gdxmerge.cpp:FileList::AddFile"]}
{"id": "C57", "title": "What the object tells about itself", "statement": "The answers of the enquiry functions fit together and are right for as long as they should be. The three switches (store domain sets, allow bogus domains, map acronyms to NaN) are as set last, or 1, 1, 0 if never set, whatever files are opened and closed in between. gdxFileInfo and gdxFileVersion do not change between opening and closing; a new file has version 7 and the compression asked for, and says the same when opened again. Symbols and labels are numbered from 1 to the counts that gdxSystemInfo reports, and every other number is refused; gdxSymbolDim agrees with gdxSymbolInfo. Error records are numbered from 1 to gdxDataErrorCount; gdxDataErrorRecord tells what gdxDataErrorRecordX tells with positive indices. gdxAcronymName of gdxAcronymValue of a registered acronym is its name. After gdxClose there are no symbols, labels, texts, acronyms or error records.", "quantifier": "all sequences of calls, all states reached", "why_tests_cant": "the answers must stay right after any history of calls", "anchors": ["src/gxfile.cpp:gdxFileInfo", "src/gxfile.cpp:gdxSystemInfo", "src/gxfile.cpp:gdxSymbolInfo", "src/gxfile.cpp:gdxSymbolDim", "src/gxfile.cpp:gdxUMUelGet", "src/gxfile.cpp:gdxDataErrorRecord", "src/gxfile.cpp:gdxStoreDomainSets", "src/gxfile.cpp:gdxAllowBogusDomains", "src/gxfile.cpp:gdxMapAcronymsToNaN", "src/gxfile.cpp:gdxAcronymName", "src/gxfile.cpp:gdxClose"]}
{"id": "C58", "title": "A program that does everything right loses nothing", "statement": "If a symbol is started between symbols with a new, valid name, dimension and type, and its raw records are handed over in increasing order of their indices and within the announced bounds, then the start, every record and gdxDataWriteDone are accepted, no error is counted, the symbol is in the table, and the file holds exactly the records handed over. The same holds for records handed over in any order by label, if the labels are well-formed and no tuple of labels comes twice, and by user number, if each user number stands for a label and no tuple of labels comes twice: the file then holds each of them once, in increasing order.", "quantifier": "all files, symbols, bounds, numbers of records, calls before and after", "why_tests_cant": "acceptance must hold for every symbol after every history of calls", "anchors": ["src/gxfile.cpp:gdxDataWriteRawStart", "src/gxfile.cpp:gdxDataWriteRawStartKeyBounds", "src/gxfile.cpp:gdxDataWriteRaw", "src/gxfile.cpp:gdxDataWriteDone", "src/gxfile.cpp:DoWrite", "src/gxfile.cpp:gdxDataWriteStrStart", "src/gxfile.cpp:gdxDataWriteStr", "src/gxfile.cpp:gdxDataWriteMapStart", "src/gxfile.cpp:gdxDataWriteMap"]}
{"id": "C59", "title": "The file that gdxmerge leaves", "statement": "When the output of gdxmerge is opened again, its n-th symbol is the n-th symbol of the inputs, one dimension wider, and reading it delivers, in increasing order, the records of all the input files for it, each exactly once: the first index stands for the name of the input file, the others for the labels of the record, element texts and values are those of the input. The symbol after them is a set whose elements are exactly the names of the input files, each with the text that describes the file.", "quantifier": "all lists of input files without two records of the same name, labels and file", "why_tests_cant": "all numbers, sizes and overlaps of files", "anchors": ["src/tools/gdxmerge/gdxmerge.cpp:main", "src/tools/gdxmerge/gdxmerge.cpp:SymbolList::WritePGXFile", "src/tools/gdxmerge/gdxmerge.cpp:FileList::AddFile"]}
{"id": "C60", "title": "The table that gdxdump writes is the symbol", "statement": "With Format=csv gdxdump writes, after a line of column names, one line for each record of the symbol in the order of the records. A reader that splits the text at line ends and at the delimiter, taking quoted fields as a whole and doubled quotes as one, finds in each line the labels of the record (L__n for an index without a label) followed by its values: the level, all five fields if asked for, or the text of the element; acronyms by name, special values by the strings chosen. This holds whatever characters labels and texts contain.", "quantifier": "all files the library wrote, all symbols with records, all delimiters and options, all labels, texts and values", "why_tests_cant": "quotes, delimiters and blanks can occur in every position of labels and texts, and the number of records is unbounded", "anchors": ["src/tools/gdxdump/gdxdump.cpp:WriteSymbolCSV", "src/tools/gdxdump/gdxdump.cpp:QQCSV", "src/tools/gdxdump/gdxdump.cpp:WrVal", "src/tools/gdxdump/gdxdump.cpp:GetUELAsString", "src/tools/gdxdump/gdxdump.cpp:GetUel4CSV"]}
{"id": "C61", "title": "The table with one column for each label of the last index", "statement": "With CDim=Y gdxdump writes one line for each combination of the indices but the last that occurs, in their order, and one column for each label that the last index takes, in the order of the label numbers. The cell of a line and a column shows the level of the record with these indices (Y for a set) and is empty if there is none; every record is shown exactly once.", "quantifier": "all files the library wrote, all symbols of two or more dimensions with records whose last indices have labels, all delimiters and options", "why_tests_cant": "which cells are empty depends on every pattern of records", "anchors": ["src/tools/gdxdump/gdxdump.cpp:WriteSymbolCSV"]}
{"id": "C62", "title": "Names of columns and indices without labels", "statement": "The columns of a table written by gdxdump have different names, and tables can be written for every file that the library accepts.", "quantifier": "all files and symbols", "why_tests_cant": "all combinations of domain names and indices", "anchors": ["src/tools/gdxdump/gdxdump.cpp:WriteSymbolCSV"]}
{"id": "C63", "title": "Appending that is interrupted", "statement": "If the process stops while symbols are added to a file that gdxOpenAppend has opened, at any point between or inside the writes to the disk and before the last write of gdxClose, then the file is exactly what it was before, or gdxOpenReadEx and gdxOpenAppend refuse it. It never opens with other contents than the old ones.", "quantifier": "all files the library wrote, all sequences of calls of the appending session, all points where its writes can stop, also inside a write", "why_tests_cant": "the crash point can lie between any two bytes of any write, and the order of the writes depends on the whole history of calls and on the buffer", "anchors": ["src/gxfile.cpp:TGXFileObj::gdxOpenAppend", "src/gxfile.cpp:TGXFileObj::gdxClose", "src/gxfile.cpp:TGXFileObj::InitDoWrite", "src/gxfile.cpp:TGXFileObj::gdxDataWriteDone", "src/gdlib/gmsstrm.cpp:TBufferedFileStreamDelphi::FlushBuffer"]}
{"id": "C64", "title": "Sets with texts", "statement": "For a symbol of a file, gdxSetHasText answers 1 if it is a set and one of the records in the file has a value other than 0 (a reference to an element text), and 0 otherwise, also after symbols were appended to the file.", "quantifier": "all files the library wrote, all symbols written raw, with labels or with user numbers, with or without domains, all later appending sessions", "why_tests_cant": "the answer is accumulated over every record and every way of writing, and records can be refused, filtered by domains or dropped as duplicates before they count", "anchors": ["src/gxfile.cpp:TGXFileObj::gdxSetHasText", "src/gxfile.cpp:TGXFileObj::DoWrite", "src/gxfile.cpp:TGXFileObj::gdxOpenReadXX"]}
{"id": "C65", "title": "Data statements", "statement": "The data that gdxdump writes for a symbol (Format=normal) holds exactly its records: a reader that separates items at commas and the labels of an index at periods, and understands quoted texts, finds, in the order of the records, one item for each value that is shown, with the labels of the record, the name of the value for variables and equations, and the value, or the text of the element for sets. With default values left out, exactly the values equal to the default of the type of variable or equation are missing.", "quantifier": "all files the library wrote, all symbols and records, all labels, texts and values, all option settings of special values", "why_tests_cant": "labels and texts are free text and may contain the characters that separate items; which quotes are used, or none, depends on the content", "anchors": ["src/tools/gdxdump/gdxdump.cpp:WriteSymbol", "src/tools/gdxdump/gdxdump.cpp:WriteQUELText", "src/tools/gdxdump/gdxdump.cpp:WriteUEL"]}
{"id": "C66", "title": "Lists of labels and symbols", "statement": "The list of labels that gdxdump writes (UelTable) is a statement with every label of the file exactly once, in the order of the numbers. The list of symbols (SymbolsAsSet, SymbolsAsSetDI) is a statement with every symbol exactly once, in the order of the numbers, with its dimension, its type and its explanatory text, or its domain if that has at most 63 characters. A reader that understands quoted texts finds exactly these.", "quantifier": "all files the library wrote, all labels, symbols, texts and domains", "why_tests_cant": "labels and explanatory texts are free text that may contain quotes, commas, slashes and semicolons; whether the statement still ends where it should depends on what the library lets into the file", "anchors": ["src/tools/gdxdump/gdxdump.cpp:WriteUELTable", "src/tools/gdxdump/gdxdump.cpp:WriteSymbolsAsSet", "src/tools/gdxdump/gdxdump.cpp:WriteSymbolAsItem"]}
{"id": "C67", "title": "List of element texts", "statement": "gdxdump SetText finds the number of element texts of a file by asking for single texts, whatever that number is, with at most 32 questions after the first two. If the tool comes to its end, the list that it writes has every element text of the file exactly once, in the order of the numbers, each with its number, and the first line has their number. (The second line, the largest number found in the records, is wrong if the last symbol has it.)", "quantifier": "all files the library wrote, with any number of texts up to 2^31 - 1", "why_tests_cant": "the search depends on the number of texts; its end and the absence of questions outside the integers have to hold for 2^31 - 1 different numbers", "anchors": ["src/tools/gdxdump/gdxdump.cpp:WriteSetText", "src/gxfile.cpp:TGXFileObj::gdxGetElemText"]}
{"id": "C68", "title": "Declarations", "statement": "The declaration that gdxdump writes for a symbol without comments (NoData) is one statement with the kind of the symbol, its name, the names of its domain in order (an asterisk where there is none) and its explanatory text, either as it is or in quotes, and a line that loads the data of that symbol. For an alias it is a statement with the name of the alias and the name of an earlier symbol, or the asterisk, for which it stands. The text of the symbol cannot end the statement or be taken for a domain. (With comments the first one joins the explanatory text.)", "quantifier": "all files the library wrote, all symbols, names, domains and explanatory texts", "why_tests_cant": "explanatory texts are free text; whether they can end the statement depends on every combination of quotes, separators, periods and parentheses in them", "anchors": ["src/tools/gdxdump/gdxdump.cpp:WriteSymbol", "src/tools/gdxdump/gdxdump.cpp:WriteQText", "src/tools/gdxdump/gdxdump.cpp:WriteQuotedCommon"]}
{"id": "C69", "title": "Declarations of acronyms", "statement": "gdxdump writes, for a file with acronyms, one statement for each acronym, in the order of the numbers, with the name of the acronym and its text, either as it is or in quotes; the text cannot end the statement or be taken for a domain. Without acronyms it writes nothing. (Does not hold: the first statement has no name, and the last acronym is missing.)", "quantifier": "all files the library wrote, all acronyms, names that are words, and texts", "why_tests_cant": "texts are free text, and the number of acronyms is not limited", "anchors": ["src/tools/gdxdump/gdxdump.cpp:WriteAcronyms", "src/tools/gdxdump/gdxdump.cpp:WriteQText", "src/gxfile.cpp:gdxAcronymGetInfo"]}
{"id": "C70", "title": "Tables of symbols and domains", "statement": "The table of symbols that gdxdump writes (Symbols) is a heading and one line for each symbol of the file, in the order of the names, numbered from 1, with the name, dimension, type, number of records and explanatory text of the symbol; number, name and number of records are in columns that are wide enough for all lines. The table of domains (DomainInfo) has one line for each symbol, in the order of the names, with the number, type, kind of domain, name and the names of the domain in parentheses.", "quantifier": "all files the library wrote, all numbers of symbols, names, texts and domains", "why_tests_cant": "whether a symbol is lost in the ordered table, or a column is too narrow or a line is broken depends on all names, counts and texts together", "anchors": ["src/tools/gdxdump/gdxdump.cpp:WriteSymbolInfo", "src/tools/gdxdump/gdxdump.cpp:WriteDomainInfo", "src/tools/library/short_string.cpp:operator<"]}
{"id": "C71", "title": "Domains refer to what is in the file", "statement": "For every symbol, while a file is written and after it is opened for reading, gdxSymbolGetDomain and gdxSymbolGetDomainX answer with one entry per dimension. Each number gdxSymbolGetDomain answers is 0 or the number of a set or an alias of the file, each name gdxSymbolGetDomainX answers is * or an identifier; with result 3 the names are those of the numbers, with result 1 all entries are free.", "quantifier": "all histories of calls that write or append to a file, all symbols, all calls that set domains, whether they succeed, fail or give up half way", "why_tests_cant": "a number out of range would be looked up outside the symbol table; whether one can be stored depends on every call that sets, adds or rewrites symbols, in this session and in those that wrote the file before", "anchors": ["src/gxfile.cpp:gdxSymbolSetDomain", "src/gxfile.cpp:gdxSymbolSetDomainX", "src/gxfile.cpp:gdxSymbolGetDomain", "src/gxfile.cpp:gdxSymbolGetDomainX"]}
{"id": "C72", "title": "Every error has a message of its own", "statement": "Whatever calls are made on an object, the error that gdxGetLastError answers, unless the operating system has one, and the error number that gdxOpenReadEx, gdxOpenWriteEx and gdxOpenAppend hand back, is one for which gdxErrorStr has a text that is not empty and does not depend on the operating system, or the number 2 for a file that is not there. Different errors of the library have different texts. For a missing file gdxErrorStr hands over the text of the operating system with the name of the file.", "quantifier": "all histories of calls, all error numbers, all file names and texts of the operating system", "why_tests_cant": "an error number that was added without a text shows up only in the one history of calls that reports it; whether the text fits the caller's buffer depends on the length of the file name", "anchors": ["src/gxfile.cpp:errorCodeToStr", "src/gxfile.cpp:gdxErrorStr", "src/gxfile.cpp:gdxGetLastError", "src/gdlib/utils.hpp:assignStrToBuf"]}
