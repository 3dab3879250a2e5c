# Formal model of pynitf — design

The system under study is `/repo/pynitf` (python), at the pinned commit.  Nothing is run; every
model definition is a reading of the source text and cites file and lines.  The properties are in
`properties.jsonl`, the claims (property, status, theorems) in `tools/claims.txt`, from which
`MANIFEST.json` is generated.  Attempts to break the theorems with wrong programs are logged in
`seeded/LOG.jsonl`.

## Trusted base

* Coq 8.16.1's kernel, its virtual machine (`vm_compute` in examples and refutations) and the
  standard library.
* `Print Assumptions` of every property theorem (printed at the end of each `P_*.v`): "Closed
  under the global context" for all of them.  `coqchk` also lists seven axioms of the module
  `Coq.ssr.ssrunder` (`Under_rel`, `Over_rel`, …), which belong to standard library
  files that are loaded; no theorem here uses them.
* The reading of the python source: the model is a hand transcription of the cited lines.
  `tools/gen_desc.py` (parsing text with `ast`, no import of the package) generates
  `theories/Descs*.v`, the Coq form of the 49 shipped field tables; it is part of the trusted
  reading.
* Python semantics used by the model, written out in `Base.v`, `Decimal.v`, `Utf8.v`: `bytes`/`str`
  as lists of code points, ASCII/latin-1/UTF-8 codecs, `rstrip` of `bytes` and of `str`, `%0Nd`,
  `%+0N.Mf`, `%e`, `int()`, `float()`, `range`, slices, `ljust`, `struct` integers.  Python 3.10 or
  later is assumed where it matters (`"{:0s}"` pads on the right).

## Modelling conventions

* Files whose definitions carry citations are the model.  Definitions in `Spec.v`, `TextSpec.v`,
  `Wf.v`, `Codec.v`, `Deps.v`, `RoundTrip.v`, `Literal.v`, `*Lemmas.v`, `File*.v` other than `File.v`,
  and `P_*.v` are vocabulary of the statements and proofs, not part of the model.
* Exceptions are values: `res A := Ok a | Err e`; `e` keeps only the exception class.
* `str` and `bytes` are `list N`.
* A FieldStruct is a pure description (tree of fields and loops) plus a state
  (`field id -> index tuple -> stored value`, literals, recorded file offsets).  Fields are python
  objects, so ids are assigned in construction order and a name resolves to the last field that has
  it (as the dict in `NitfLoop.__init__`).
* Expressions (`condition`, `size`, loop counts) are an AST covering exactly the expression forms
  present in the shipped tables; python `eval` itself is not modelled.  `int((a / 2) * b)`
  (`EHalfMul`) is taken to be exact, which holds below 2^53.  Arithmetic and `<`, `<=`, `>`, `>=` are modelled on
  numbers only (python would also join or order texts); comparing with a float is an error.
* Floats are a parameter of the engine (`FloatOps`: a type with parse, format, conversions).  Theorems
  that need more say so: `FloatLaws` (printed text parses, is ASCII and nonblank …), `FloatStable`
  (print–parse–print is stable).  `Decimal.v` gives an instance, `DecF`, over exact decimals, with the
  laws proved (`DecF_laws`, `DecF_stable`); python rounds a parsed text to the nearest double, which
  the instance does not.  Comparison of floats is a second parameter, `CmpOps`.
* Recursion through `eval` (a condition that reads a field whose condition reads …) has fuel = number
  of fields + 1; `Deps.v` proves the fuel irrelevant for tables accepted by `wf_rows`.
* `wf_rows` (`Wf.v`) is a decidable condition on tables: names referenced are in scope, earlier, of the
  right dimension and read exactly; all 49 shipped tables satisfy it (C42).
* Theorems are about non-error outcomes, or state the error.

## What is modelled

| files of the model | code |
|---|---|
| `Base.v`, `Engine.v` | `nitf_field.py:1-528` (fields, formats, get/set/bytes/read, FieldData classes), `529-845` (NitfLoop, FieldStruct: construction, lookup, read, write, `update_field`, raw access) |
| `Decimal.v`, `DecimalFit.v` | `float_to_fixed_width`, the `%` formats, `_tre_rpc_coeff_format` |
| `Delayed.v` | delayed reading (`nitf_field.py:835-840, 916-933`) |
| `Copy.v` | `__deepcopy__`/`__getstate__`/`__setstate__` on a heap of shared tables |
| `Descs*.v` | the field tables of headers, DESs, TREs |
| `Tre.v` | `nitf_tre.py`: record framing, stream decoder, registry, `TreUnknown` |
| `TreImpl.v` | `nitf_tre.py:28-110`: TREs with an implementation object; the object's class is a parameter |
| `TrePlace.v` | `nitf_tre.py:163-231`: placing TREs in header areas and overflow segments |
| `Security.v` | `nitf_security.py` and the six headers that carry markings |
| `Handles.v`, `Hooks.v` | `priority_handle_set.py`, `nitf_segment_hook.py` |
| `Image.v`, `ImageNew.v`, `ImageCopy.v` | `nitf_image.py`: band and pixel type setters and getters, on-demand writing, readers, `data_written`, writing again, `_deepcopy` |
| `File.v`, `FileRead.v`, … | `nitf_file.py`, `nitf_segment.py`: writing a file, header patching, sequential reader |
| `Igeolo.v` | `nitf_image_subheader.py:215-371`: corner coordinates |
| `Engrda.v` | `nitf_tre_engrda.py` |
| `Assoc.v` | `nitf_des_associated_user_subheader.py` |
| `ExtContent.v` | `nitf_des_ext_def_content.py` |
| `Merge.v` | `nitf_file_merge.py` |
| `Diff.v` | `nitf_field.py:953-1066, 647-660` (`FieldStructDiff`, `is_shape_equal`) |
| `FileDiff.v` | `nitf_file_diff.py:12-33, 91-166` and the handlers for headers, user subheaders, TREs, texts, images, DESs and placeholders: the verdict of a comparison |
| `Listing.v` | `nitf_field.py:136-161, 203-209, 431-482, 619-645, 662-681, 865-896, 905-908, 941-946`: lists, text, and python's notation for bytes |
| `Delta.v` | `nitf_file_json.py`, `nitf_file_merge.py:20-78`: making, loading and merging a delta |
| `DesPrint.v` | `nitf_des.py:14-109`: a DES of fields as an object, `update_raw_field` and `__str__`; without implementation objects |
| `DesImpl.v` | `nitf_des.py:25-109`: DESs with an implementation object; the object's class is a parameter |
| `WeakDict.v` | `weak_key_value_dict.py` and its use as cache of file maps (`nitf_image.py:168-172, 261, 393-405`); which objects die when is arbitrary |
| `Csexrb.v` | `nitf_tre_csexrb.py:133-192`: the associations of CSEXRB; `str(uuid.uuid1())` is a parameter, the DESs of the file are a list with their identifiers |
| `Illuma.v` | `nitf_tre_illuma.py:39-82`, `nitf_tre.py:73-80`; a parser for plain XML stands in for `ElementTree.fromstring` |
| `Docopt.v` | `docopt_simple.py`: options as attributes; docopt's dictionary is arbitrary, `re.match` decided by derivatives |
| `FileLog.v` | `nitf_diff_handle.py:22-28, 78-96`, `nitf_file_diff.py:25-166`, `nitf_field.py:989-1066`, the messages of the handlers, `bin/nitf_diff:107-155`: level, context and subject of what is logged, and what the tool prints |
| `FilePrint.v` | `nitf_file.py:76-144`, `nitf_segment.py:113-147, 353-360`, `__str__` and `summary` of the data classes, subheaders and TREs: the text of a file and its summary, and the file afterwards |
| `Shared.v` | `nitf_segment.py:13-112, 166-199`, `nitf_segment_data_handle.py:27-86`: the shared headers of segments and data as objects with references |
| `SetOps.v` | `priority_handle_set.py:4-27` with python's `collections.abc.Set`: the operators and comparisons of handler sets |
| `MaxPrec.v` | `nitf_field.py:20-34`: `float_to_fixed_width` with `maximum_precision=True` |
| `UshDispatch.v` | `nitf_segment_user_subheader_handle.py`: handlers for user subheaders, their tables, and which class is used |
| `Rsm.v` | `nitf_tre_rsmgga.py:4-14, 73-91`, `nitf_tre_rsmpca.py:84-103`: grid coordinates, attributes asking the implementation object |
| `OpenFile.v` | `nitf_field.py:339-362, 625-629, 912-914, 935-939`: writing and updating structures in an open file with a position, field by field, with failures; programs over several structures |
| `FailRead.v` | `nitf_field.py:364-398, 631-635, 835-847, 916-933`: reading field by field, with what is left in the structure and of the file when it fails; delayed reads that fail |
| `TwoFiles.v` | `nitf_file.py:20-30, 191-226`, `nitf_segment.py:98-101, 180-185, 210-241`: writing a file some of whose segments are linked to another one |
| `InPlace.v` | `nitf_image.py:66-70, 73-87, 135-136, 189-203`, `nitf_file.py:191-226`: writing images from the file they were read from, as it is at that time |
| `FailWrite.v` | `nitf_file.py:191-226`, `nitf_tre.py:185-231`, `nitf_segment.py:155-164, 201-241`: the object after `NitfFile.write`, whether it raised or not |

## What is not modelled

* The file system (mmap, flush, partial writes), garbage collection outside `WeakDict.v`, logging
  output, hdf5/jsonpickle/XML libraries, numpy internals (only index arithmetic and byte order).
* The libraries behind implementation objects (their functions are arbitrary in C58 and C60); the
  `unpack` of the RSMGGA coordinate and ENGRDA data kinds inside the generic engine is in
  `Rsm.v` and `Engrda.v` (in the engine the value is the bytes); `pow(10.0, n)` for assigned `n` above 308.
* The json printer and the command line tools.
* Digits outside ASCII in `int()`/`float()`.
* Engine: reachable states leave out the partial effects of failed reads, writes and updates; these are
  in `FailRead.v` and (with the file position, for files not opened for appending) `OpenFile.v`.
* Handles: set operators with collections that are not handler sets.  Hooks: a hook changing the hook set
  while it runs.
* Images: pixels are taken as big-endian bytes; numpy's conversion and broadcasting are not modelled;
  `int(numbands / 2)` exact; resizing the memory map when a second image is written.
* Files: segments whose data is placed by user callbacks.  A segment in two files is in `TwoFiles.v`; what
  a failed write leaves in the two headers is not.  Image data that was read is taken to be unchanged in the
  file it is copied from, except in `InPlace.v`; there what is still buffered is arbitrary, and what a failed
  write leaves is not modelled.  The object after a failed write of one file is in `FailWrite.v`, the part of
  the file such a write has made is not.  C27 needs `settled` headers, i.e. an empty TRE area holds no forgotten
  overflow number (true of new headers and kept by writing; refuted without it).
* Igeolo: exact rationals instead of doubles.
* Engrda: labels are `str`; the change `byteswap(">")` makes to the caller's array, bytearray and
  negative `reshape` are not modelled.
* Assoc: generation of uuids is a parameter.
* ExtContent: partial effects of a failed parse; an empty memmap counts as a failure; of the h5 class
  only the data part.
* Merge: the notification hook, and the second run of the read hooks in the constructor.
* Diff: configured functions (`eq_fun`) are pure; keys are listed before comparing (only which
  exception is raised can differ); the log is lost with an exception; `getattr` finding class
  attributes first.
* FileDiff: the log (modelled in FileLog, without the texts of the messages and without `logging` itself); `skip_obj_func` is pure; images made by a callback and not written yet; whether an
  image was read as an array is recomputed from its subheader and `fc_numpy`; integer pixels are
  compared in exact arithmetic; classes are told apart by tag or name.

* ILLUMA: an attribute is `None` or a float.  The XML library is modelled by a parser for ASCII
  documents made of elements, attributes, text and a declaration, which accepts exactly those of a
  grammar (`C49_parser`); it answers `None` for anything else, well formed or not.  What the declaration
  says and whether the prefix of an attribute is declared are not looked at.  That `float(str(v))` is `v`, and that `str(v)` has only letters, digits,
  signs and points, are hypotheses on the values.
* FilePrint: hooks write text but do not change what they are given; EXT_DEF_CONTENT DESs, TREs with an
  implementation object and ILLUMA are left out; the subheader of an image is taken to be as it was
  read; images not yet written are taken to be `NitfImageWriteDataOnDemand`; `bin/nitf_info` around it.
* Delta: the JSON text (jsonpickle calls `__getstate__`/`__setstate__`, which write and read each
  object); the hooks; the data objects of the other file, whose headers the merger replaces.
* Listing: iterators are run to their end, with the keys before the values; the source text of a loop
  count and `str` of the values of RSMGGA and ENGRDA classes are parameters; while a read is pending, a
  constant loop count of 0 before a count that names a field.

## Properties and where they are proved

| id | files | status and what is missing |
|---|---|---|
| C01–C05 | `RoundTrip.v`, `Rewrite.v`, `Literal.v`, `Positions.v`, `P_RoundTrip.v` | proved |
| C06, C07, C09, C11, C12, C13 | `Codec.v`, `Assign.v`, `Update.v`, `P_Fields.v`, `P_OpenFile.v` | proved |
| C08 | `P_Fields.v` | partial: a failing assignment of sized data changes the state (refuted) |
| C10 | `Keys.v`, `P_Fields.v` | partial: only the last index is checked (refuted) |
| C14 | `Delayed.v`, `P_Delayed.v` | partial: raw bytes, writing, TRE assignment before the first read differ (refuted; what they give instead is proved) |
| C15, C16, C17 | `P_Codec.v`, `P_FloatText.v` | proved |
| C18 | `Copy.v`, `P_Copy.v` | partial: pickling of objects made from a description, copies while a read is pending (refuted) |
| C19–C21, C29 | `Tre.v`, `P_Tre.v` | C19 partial: `TreUnknown` accepts truncated records (refuted); rest proved |
| C22–C24 | `TrePlace.v`, `P_TrePlace.v` | partial: overflow with an empty first area raises; graphics; stale areas (all refuted) |
| C25–C27, C44 | `File*.v`, `P_File*.v`, `P_Skip.v` | C44 proved; C25, C26, C27 partial (see claims) |
| C28 | `P_File.v` | proved |
| C46 | `FileAgain.v`, `P_FileAgain.v` | partial: files without overflow segments; refuted with one |
| C30, C31, C32 | `P_Handles.v`, `P_Hooks.v` | proved |
| C33 | `P_Security.v`, `P_Defaults.v` | partial: comparison ignores codewords and encryption (refuted) |
| C34 | `P_Igeolo.v`, `P_FloatText.v` | partial: signs lost in G, UTM exchanged (refuted) |
| C35, C36 | `P_Image.v`, `P_ImagePart.v` | partial: complex128, 10000 rows; numpy writer modes; pixels not supplied (refuted) |
| C37–C39, C45 | `P_Engrda.v`, `P_EngrdaRead.v`, `P_Assoc.v`, `P_ExtContent.v`, `P_Defaults.v` | C45 proved; others partial with refutations |
| C40 | `P_Diff.v`, `P_DiffCases.v` | partial: two dimensions, NaN (refuted) |
| C41 | `P_Merge.v` | proved |
| C47 | `P_FileDiff.v`, `P_FileDiffRead.v`, `P_FileDiffEx.v` | partial: as C40, and where the comparison raises or misses data (refuted) |
| C48 | `P_Listing.v`, `P_ListingRead.v` | partial: tables with computed fields or odd number sizes; pending reads, duplicate names (refuted) |
| C49 | `P_Illuma.v`, `P_IllumaXml.v` | partial: values that are floats, documents of plain XML; no namespace, old values (refuted) |
| C50 | `P_Delta.v`, `P_DeltaMerge.v`, `P_DeltaRead.v`, `P_DeltaEx.v` | partial: values that come back exactly from their text, no overflow segments; what a delta does not keep (refuted) |
| C51 | `P_Expr.v` | proved |
| C52 | `P_Expr.v`, `P_Default.v` | proved, except that six classes cannot be written when new (refuted) |
| C53 | `P_DesPrint.v` | what printing does: proved; that it changes nothing: refuted |
| C54 | `P_Csexrb.v` | identifiers without white space at the end: proved; others: refuted |
| C55 | `P_Fits.v`, `P_Limits.v` | proved |
| C56 | `ImageCopy.v`, `P_ImageCopy.v` | partial: copies of interleaved images, data cut off (refuted) |
| C57 | `P_ReadAny.v` | partial: kept bytes of absent fields, leading indices (refuted) |
| C58 | `TreImpl.v`, `P_TreImpl.v` | partial: kept bytes, failed reads, lengths (refuted) |
| C59 | `WeakDict.v`, `P_WeakDict.v` | partial: `pop` with a default, deaths inside a call, listing keys (refuted) |
| C60 | `DesImpl.v`, `P_DesImpl.v` | partial: assigned fields, lengths (refuted) |
| C61 | `Docopt.v`, `P_Docopt.v` | partial: names made of digits (refuted) |
| C62 | `P_FileLog.v`, `P_FileLogEx.v` | partial: user subheaders and five DES classes are not located (refuted) |
| C63 | `P_FilePrint.v`, `P_FilePrintRead.v`, `P_FileSummary.v`, `P_FilePrintKeep.v`, `P_FilePrintEx.v`, `P_FilePrintData.v` | partial: user subheaders are printed twice; files that were changed after reading (refuted) |
| C64 | `P_Shared.v` | partial: assigning `data`, merging, and using data for two segments (refuted) |
| C65 | `P_SetOps.v` | proved |
| C66 | `P_MaxPrec.v` | partial: the text can be less precise than without the option (refuted) |
| C67 | `P_UshDispatch.v` | partial: a handler below the shipped tables is never asked (refuted) |
| C68 | `P_Rsm.v` | partial: coordinates cannot be assigned; edition of the object and of the fields differ (both refuted) |
| C69 | `P_OpenFile.v` | partial: a failing update can leave the file at the field (refuted) |
| C70 | `P_FailRead.v` | partial: a failed read leaves what was read so far, a failed delayed read then shows defaults (refuted) |
| C71 | `P_FileCut.v` | partial: a cut in the data of the last segment can go unnoticed (refuted) |
| C72 | `TwoFiles.v`, `P_TwoFiles.v` | partial: a file with a segment that was appended to another file since is written wrongly (refuted) |
| C73 | `InPlace.v`, `P_InPlace.v` | partial: a file cannot be written to where it was read from (refuted) |
| C74 | `FailWrite.v`, `P_FailWrite.v` | partial: a failed write does not leave things as they were (refuted) |
| C42, C43 | `P_Descs.v`, `P_Codec.v` | partial: duplicate names, 13 characters near 1e10 (refuted) |

## Findings

Behaviour of the code that contradicts what one would expect, found while modelling.  "Proved" means
there is a theorem `…_refuted` (or the named one) with a concrete witness; the others are readings of
the source only.

1. The graphic subheader's TRE list names `sxsofl`, the field is `sxofl`: graphics with TREs cannot be
   written (proved, C23).
2. IGEOLO in UTM writes northing before easting and reads them exchanged; northings from 10^6 on
   exceed 60 characters (proved, C34).
3. IGEOLO "G": the sign of S and W is lost on reading (proved, C34).
4. `NitfSecurity.__eq__` ignores codewords and encryption (proved, C33).
5. `prepare_tre_write` leaves the bytes of an earlier write in an area that has become empty
   (proved, C24).
6. If a TRE does not fit and nothing goes into the first area, setting the overflow number raises
   (proved, C22).
7. The order of TREs is not kept across an overflow.
8. Lists of a file that was read are plain lists; segments appended to them do not know their file and
   their sizes do not reach the header (proved, C25).
9. Delayed reading: raw bytes, writing and assignment before the first read see the unread object; a
   read error shows only once (proved, C14).
10. `check_index` checks only the last index (proved, C10).
11. `is_shape_equal` compares only innermost counts over the first structure: comparison can raise,
    depend on order, miss differences (proved, C40).
12. `NitfDiff.update_config` refers to a module that is not imported, and to `self.update`.
13. `DesFieldStructDiff` with different tags raises NameError.
14. `SegmentDiff` ignores the second user subheader when the first has none (proved, C47).
15. complex128 needs `nbpp` 128 in a two-digit field; more than 9999 rows or columns cannot be written
    (proved, C35).
16. Reading pixel-interleaved images of one block row and column as band sequential; `WriteNumpy` in
    row or band mode (proved, C36); `raise NotImplemented()`.
17. `TreUnknown` accepts truncated data (proved, C19) and ill-framed streams (proved, C21); a tag
    shorter than six characters never matches a class.
18. A failed assignment of sized data changes the state (proved, C08).
19. ENGRDA: `byteswap(">")` always swaps, also big-endian arrays (and changes the caller's array); text that is not ASCII is refused
    after the record count was increased; duplicate labels from a file (proved, C37); `__iter__`
    raises NameError.
20. `DesExtContentHeader.parse` fails on a value with ": " and lets CR LF through (proved, C39).
21. Adding a display level where the count is "ALL" raises; identifiers with trailing blanks are kept
    twice (proved, C38); `NitfDataPlaceHolder` cannot be written; content that was read is written as
    zeros (proved, C39).
22. `str` and `bytes` fields strip different sets of trailing characters.
23. Reserved bytes are not preserved (example, C04).
24. SENSRB and CSCSDB have duplicate field names (proved, C42).
25. ILLUMA uses an `Element` as a truth value; an element without children is false, so the values of a
    document without the namespace, which the code says it wants to read, are dropped without a word
    (proved, C49).
26. `get_raw_bytes` of an absent conditional `str` gives `b"None"`.
27. An optional field with '-' fill holding "" is written blank, read as None, rewritten as dashes
    (example, C03).
28. Lookup tables of different lengths make the image subheader unwritable.
29. Entries of `fh_loc` from an earlier write persist.
30. The RPC format has 13 characters near 1e10 (proved, C43).
31. `__setstate__` lacks the description (proved, C18).
32. A DES with user subheader data but no registered class loses it on rewriting.
33. A forgotten overflow number resurfaces when an area is filled again (proved, C24, C27).
34. `iseg_by_idlvl` raises `KeyError` with the id as text; RES user subheaders do not work.
35. The image reader trusts the subheader's size, not LI.
36. A DES with `data_copy` whose fields exceed the declared size reads to the end of the file; negative
    sizes in a header seek backwards.
37. `NitfFileMerge` runs the read hooks a second time on segments they were already run on.
38. A float field holding NaN differs from itself (proved, C40).
39. Excluded fields are still fetched when comparing, so an unreadable one makes the comparison raise.
40. A file with an overflow segment changes when it is read and written again: the TREs of the overflow
    segment come first in the list that was read, so others overflow the next time (proved, C46).
41. The TREs of a text segment may take 99,985 bytes as far as the placement code knows, but the file
    header gives a text subheader's length four digits: from about 9,700 bytes of TREs on the file
    cannot be written, although an overflow segment could take them.
42. Comparing files raises for a text segment that is not UTF-8, for a graphic segment (nothing is
    registered to compare NitfGraphicRaw, NitfResRaw, NitfDesCopy), for unknown TREs that differ and are
    not UTF-8 (they are decoded for the log), and for CSEXRB and MTIMSA TREs with numbers of 5 to 7
    bytes, which are read without complaint (all proved, C47, the first two and the last also for a
    file against itself).
43. The data after the fields of a DES (`data_to_copy`) is not compared; integer pixels are compared
    with `np.allclose`, so 100000 and 100001 are the same (proved, C47).
44. CSATTA registers its comparison under the name "DesCSATTB", so the configuration for CSATTA is never
    used.
45. Overflow segments are compared pairwise and count as segments: files with the same TREs, placed
    differently by another writer, differ.
46. Printing (or listing) a structure whose read is pending shows the values before the read until an
    expression that names a field is evaluated (proved, C48).  `update_raw_field` of a TRE with an
    implementation object always leaves a read pending, so `str(tre)` shows the old raw fields.
47. `FieldStruct.items` lists a duplicate name once, with the last field of that name; `str` shows both
    (proved, C48).
48. Reading an ILLUMA record into an object that has values keeps those the document does not have
    (proved, C49).  `TreILLUMA.__init__` does not call that of `FieldStruct`: `copy.deepcopy`, the file
    comparison and anything else that asks for `field` raise AttributeError (read off the code).
49. A delta cannot say that all TREs or all segments of a kind were removed, leaves out graphics and
    reserved segments, drops overflow segments as soon as there is another DES, and loses the data after
    the fields of a DES (`__deepcopy__` reads into an object without a segment).  Files with two images
    (or DESs kept elsewhere) of the same names, with unknown TREs (`__setstate__` calls `__init__`
    without the tag) or with texts that are not UTF-8 cannot go through one (all proved, C50).
50. Merging sets `_shared_header` of the other file's data objects to the delta's, so the other file is
    changed by being merged; `create_delta` ignores its second file (read off the code).
51. A new BANDSB, ILLUMB, MTIMSA, PIXMTA, PIXQLA or RSMAPB cannot be written before fields are assigned,
    in the right order: the default of a binary field is 0, `bytes(0)` is empty, and `struct.unpack`
    of it fails (a three byte number reads as 0 but has no bytes to write); `int('')` and `int(None)`
    in their loop counts fail for the default texts (proved, C52).  A PIXMTA whose `fittype` is neither
    `P` nor `D` has no coefficient count either and fails with `int(None)`.
52. `str(des)` writes the DES and reads it back into itself.  Printing therefore rounds values to what
    their format keeps, raises for values that were read but do not fit their format, raises
    RuntimeError for a DES that was read from a file and then given more or fewer bytes, and, for a
    class that keeps the data after its fields, drops the end of that data if the fields grew (all
    proved, C53).
53. Like the user subheader (finding on C38), CSEXRB compares an identifier with the stored ones before
    the white space at its end is removed: one ending in a blank is added again each time (proved, C54).
54. An image written on demand band by band or row by row hands the same array to the callback each
    time without clearing it (nitf_image.py:358-361, 371-374): what the callback leaves out of a band is
    written as the data of the band before, not as zeros (proved, C36).
55. `copy.deepcopy` of an image whose pixels are interleaved keeps the subheader (`imode` P) but makes an
    object that writes band after band (nitf_image.py:445-452): with more than one band the copy shows
    other pixels than the image (proved, C56).
56. `NitfImageReadNumpy(mmap=False)` puts strides over what `np.fromfile` got without checking how much
    that is: interleaved data that is cut off is taken, and pixels come from outside of the array (proved,
    C56).  Mapped, or not interleaved, the same file is refused.
57. Reading a record into a structure that held another one leaves the bytes kept for fields that are
    now absent: `get_raw_bytes` returns those of the earlier record instead of failing (proved, C57).
58. After `update_raw_field`, `get_raw_bytes` returns the bytes of the record before until some field was
    looked at (proved, C58).  If the fields cannot be read from the object's bytes, the first access
    raises and every later one shows the earlier record (proved, C58): `_delayed_read` is cleared before
    the read is tried (nitf_field.py:836-840).
59. `Tre.read_from_file` with an implementation object does not compare the length: a record cut off at
    the end of the file, or with more bytes than its fields, is taken (proved, C58).
60. `TreUnknown.cel_value` calls the attribute `tre_bytes`, which is bytes (nitf_tre.py:119-120):
    TypeError (read off the code; nothing in the package calls it).
61. `WeakKeyValueDict.pop(key, default)` returns the weak reference instead of the value; if the caller
    keeps it, the death of the old value deletes a newer entry of the same key (proved, C59).
62. `WeakKeyValueDict.get` and `setdefault` look twice; a value that dies in between raises KeyError
    instead of giving the default (proved, C59).
63. `__iter__`, `keys`, `values` and `copy` of `WeakKeyValueDict` use methods python 3 does not have and
    raise AttributeError (proved for `__iter__`, C59); `items` gives the values without the keys.
64. Assigning a field of a DES with an implementation object is not refused as for TREs
    (nitf_field.py:294 asks only for `tre_implementation_field`): the value is shown, never written, and
    gone after the next `update_raw_field` (proved, C60).
65. A DES whose object is written with another length than its segment had cannot be read, although
    object and fields can: the length just written is compared with the one on file (proved, C60).
66. `update_raw_field` of a DES whose subheader has another `desid` does nothing and says nothing
    (nitf_des.py:39-41, 104-109).
67. `DocOptSimple` makes numbers of all texts that look like one, so the tools cannot open a file called `007`
    (it becomes the integer 7, which `open` takes for a file descriptor), and two names can become the
    same value (proved, C61).
68. `$` in the patterns of `DocOptSimple` allows a newline at the end of the text (proved as part of C61).
69. Raw bytes of an array element asked for twice on a structure read with `delayed_read=True` can differ: the
    first call makes them from the value (the read happens inside it, after the raw dictionary was looked at), the
    second gives what is in the file (proved, C14_raw_twice_refuted).
70. Differences in a DES of class CSATTA are logged under the context `DesCSATTB` (`nitf_des_csatta.py:53`, `C62_context_refuted`); this and the other handlers of CS* DESs and of user subheaders replace the context, so that the log does not say which segment is meant.
71. `nitf_diff` ends with status 1 both if files differ and if comparing them raised an exception (`C62_status_refuted`); with `--quiet` and a log file the file says that files differ but not that they are the same, and holds none of the differences (`C62_quiet_file_refuted`).
72. One text segment that is not UTF-8 keeps the whole file from being printed (`nitf_text.py:23`, `C63_utf8_refuted`), and so does one DES whose fields do not fit their formats (`C63_prints`).
73. A segment with TREs appended to a file that was read cannot be printed, and with it the file: `read` replaces the lists that tell a segment its file by plain lists (`nitf_file.py:155-181`), and `__str__` uses `self.nitf_file` without the test it makes a few lines above (`nitf_segment.py:116, 129`, `C63_appended_refuted`). It can be written.
74. `summary` takes the numbers of segments from the header, which is filled by `write`: for a file made by a program it says "0 Image Segments" above "Image segment 1 of 1" (`C63_stale_refuted`).
75. The user subheader of a DES of fields is printed twice, by the segment and by the data (`nitf_segment.py:121-123`, `nitf_des.py:87-89`, `C63_twice_refuted`).
76. Assigning `seg.data` leaves the segment with the header of the old data: `data` is a plain attribute (`nitf_segment.py:36`), so `seg.subheader` and `seg.data.subheader` are different objects, and the one written is not that of the data (`C64_assigned_refuted`).
77. Two segments made from one data object, and a segment made from the data of a segment that was read, share one header: setting `idlvl` or `security` of one changes the other, also if they are in different files (`nitf_segment.py:38`, `C64_same_data_refuted`, `C64_taken_refuted`). `NitfSegment(data, security=…)` changes the security of every segment made from the data.
78. `float_to_fixed_width(n, w, maximum_precision=True)` gives less precise texts than without the option: every negative number is below `10^(5-w)` and so written in exponent form (`-5.25125` in 10 characters is `-5.251e+00`, without the option `-5.2512500`), and so is every number above `10^(w-5)` (`123456.78` is `1.2346e+05`, without the option `123456.780`) (`C66_precision_refuted`). The package calls the function without the option only.
79. `DesIdToUSHHandle.user_subheader_cls` and `ResIdToUSHHandle.user_subheader_cls` return `(True, None)` for ids nobody registered, so they claim every DES and RES: a handler of lower priority is never asked, and a second table of the same priority makes every DES fail, also those registered with the first (`C67_lower_refuted`, `C67_clash`). Other handlers of user subheaders only work above priority 0, and then must decline all ids they do not know.
80. `RCoord` and `CCoord` have no `pack`: assigning a grid coordinate of RSMGGA raises NotImplementedError whatever the value, so an RSMGGA with grid points cannot be made with the library, only read (`C68_refused`, `C68_never`). Looking at a coordinate of a new TRE raises ValueError.
81. `edition` of RSMPCA and RSMGGA asks the implementation object while `str()`, comparisons and the section fields use the fields, which are renewed only by `update_raw_field`: after a new object was put in they differ (`C68_edition_refuted`). `super().edition` can never succeed; the field is found because python calls `__getattr__` after the AttributeError.
82. `update_file` moves the file to the field before it makes the bytes: if the new value does not fit (`nfile.file_header.update_field(fh, "hl", 10**9)`), the exception leaves the file position at the field, and a caller that catches it and writes on destroys what was written (`C69_position_refuted`).
83. `FieldStruct.__getattr__` clears `_delayed_read` before it reads: on a truncated or damaged record the first access raises, and every later access silently shows defaults for the fields that were not read (`C70_silent_refuted`). A caller that catches the exception goes on with values that are not in the file.
84. `NitfFile.read` never compares `fl` with the length of the file, and `NitfTextStr`, the raw data classes and the placeholders do not check how many bytes they got: a NITF file cut in the data of its last segment is read without complaint, with a shorter text (`C71_noticed_refuted`); a cut anywhere else raises (`C71_cut`). A cut overflow DES loses TREs in the same way.
85. Appending a segment of one file to another one (`f2.text_segment.append(f1.text_segment[0])`) makes `f1` unwritable: `_update_file_header` asks the link, which is now `f2`, so the sizes go to `f2.file_header`. If `f2` has fewer segments of the kind, `f1.write` raises IndexError; if `f2` has been written, the sizes are put into the file of `f1` at the positions they had in that of `f2`, over other fields if the layouts differ, without any complaint (`C72_linked_refuted`); if `f2` is gone the sizes stay 0 (`C72_elsewhere`).
86. Reading a file and writing it to the same name (`f = NitfFile(n); f.write(n)`) destroys the images without any complaint: `open(n, 'w+b')` empties the file, and `write_to_file` of the image opens the same file to copy the data from, finds it shorter than where the data was, and writes nothing; the header then says LI = 0 (`C73_lost`, `C73_in_place_refuted`). If a header has grown, parts of the new headers are written as pixels (`C73_in_place_case`). Likewise, if the file that was read is replaced before the copy is written, the pixels are whatever is there (`C73_changed`), fewer if it is shorter. (The arrays mapped from the file are gone too; that is outside the model.)
87. A failing `NitfFile.write` leaves the overflow DES it has made in `des_segment` (the list is only cleaned after the last segment has been written, and not in a `finally`), with the header fields pointing to it, and the output file has been emptied before anything is checked: a previous version of the file under the same name is lost (`C74_failed_refuted`). Code that looks at `des_segment` after catching the exception sees a segment nobody added; a later write that works removes it (`C74_again`).
