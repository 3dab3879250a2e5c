{"id": "C01", "title": "Field structure write/read round trip", "statement": "For any field-structure description whose conditions, sizes and loop counts refer only to earlier fields in scope, and any contents that write_to_file accepts, reading the produced bytes (followed by anything) into any other object of the same description succeeds, consumes exactly the produced bytes, and afterwards every field at every valid index reads back the value it had (integers, text and binary data exactly; floats up to what their format prints; blank text in an optional field as None).", "quantifier": "all descriptions (any nesting of loops and conditional fields), all contents, all trailing bytes, all prior states of the reading object", "why_tests_cant": "Descriptions nest loops/conditions arbitrarily and the value space is infinite; a unit test fixes one TRE and one set of values.", "anchors": ["pynitf/nitf_field.py:NitfField.bytes", "pynitf/nitf_field.py:NitfField.read_from_file", "pynitf/nitf_field.py:NitfLoop.write_to_file", "pynitf/nitf_field.py:NitfLoop.read_from_file", "pynitf/nitf_field.py:FieldStruct"]}
{"id": "C02", "title": "Written length is the sum of the declared sizes", "statement": "Whenever write_to_file succeeds, the bytes are the concatenation, in description order, of one block per present field, each block having exactly the field's declared size (size expression minus size_offset); fields whose condition is false contribute nothing.", "quantifier": "all descriptions, all contents", "why_tests_cant": "Must hold for every value, including values too long/short for their field; tests see only a few lengths.", "anchors": ["pynitf/nitf_field.py:NitfField.bytes", "pynitf/nitf_field.py:NitfField.size", "pynitf/nitf_field.py:NitfLoop.write_to_file"]}
{"id": "C03", "title": "Re-writing what was read back is byte identical", "statement": "If a structure is written, read back and written again then the second byte string equals the first, provided float formats are stable under print-parse-print and optional text fields with a non-blank fill character do not hold blank text.", "quantifier": "all descriptions, contents and starting states", "why_tests_cant": "Requires agreement of formatter and parser over the entire value space.", "anchors": ["pynitf/nitf_field.py:NitfField._format_val", "pynitf/nitf_field.py:NitfField.read_from_file", "pynitf/nitf_field.py:FieldStruct.write_to_file"]}
{"id": "C04", "title": "Literal read mode preserves bytes", "statement": "A structure read with nitf_literal=True and then written gives back exactly the bytes that were consumed, whatever odd formatting they use, as long as reserved (unnamed) areas are blank.", "quantifier": "all descriptions, all input byte strings that read successfully", "why_tests_cant": "Input space is all byte strings; includes malformed numbers and odd padding.", "anchors": ["pynitf/nitf_field.py:NitfLiteral", "pynitf/nitf_field.py:NitfField.read_from_file", "pynitf/nitf_field.py:NitfField.bytes"]}
{"id": "C05", "title": "Truncated input is rejected", "statement": "Reading from any proper prefix of the bytes a structure was written as raises an error; it never returns with values taken from missing data.", "quantifier": "all descriptions, contents and cut points", "why_tests_cant": "Cut points x contents x descriptions is unbounded.", "anchors": ["pynitf/nitf_field.py:NitfField.read_from_file"]}
{"id": "C06", "title": "Conditional fields are present exactly when their condition holds", "statement": "A field whose condition is false contributes no bytes on write, consumes none on read, reads as None, and refuses assignment without changing anything; when the condition holds its bytes are present.", "quantifier": "all descriptions, states, indices", "why_tests_cant": "The condition depends on other fields' values at that moment, including after later mutation.", "anchors": ["pynitf/nitf_field.py:NitfField.check_condition", "pynitf/nitf_field.py:NitfField.__getitem__", "pynitf/nitf_field.py:NitfField.__setitem__", "pynitf/nitf_field.py:NitfField.write_to_file"]}
{"id": "C07", "title": "Optional fields map blank fill to None and back", "statement": "Writing None to an optional field produces size copies of its fill character; reading bytes made only of the fill character and spaces gives None; a number never reads back as None.", "quantifier": "all sizes, fill characters, values", "why_tests_cant": "Any value whose text happens to be blank is a boundary case.", "anchors": ["pynitf/nitf_field.py:NitfField.bytes", "pynitf/nitf_field.py:NitfField.read_from_file"]}
{"id": "C08", "title": "Assignment either fails without effect or changes one field", "statement": "Assigning a field raises (reserved field, index out of range, condition false, hard-coded or computed field, TRE backed by an implementation object, None for a non-optional field) and leaves every observable unchanged, or succeeds; a successful assignment to a plain field changes no field other than that one and those whose presence depends on it.", "quantifier": "all states, fields, indices, values; all assignment sequences", "why_tests_cant": "Frame conditions quantify over all other fields and all histories.", "anchors": ["pynitf/nitf_field.py:NitfField.__setitem__", "pynitf/nitf_field.py:FieldData.__setitem__"]}
{"id": "C09", "title": "A successful assignment is read back", "statement": "After a successful assignment of value v, reading the same field at the same index gives v converted to the field type (text without trailing white space) or None for None.", "quantifier": "all states, fields, indices, values", "why_tests_cant": "Infinite value space and interaction with earlier reads/literals.", "anchors": ["pynitf/nitf_field.py:NitfField.__setitem__", "pynitf/nitf_field.py:NitfField.__getitem__"]}
{"id": "C10", "title": "Loop keys are exactly the in-range indices in C order; others are rejected", "statement": "The keys enumerated for a field are, in lexicographic order and without repetition, exactly the tuples whose every component is within the loop count at that position; reading or assigning at any other index raises IndexError.", "quantifier": "all nestings, all ragged shapes, all index tuples", "why_tests_cant": "Ragged shapes are data dependent; the set of wrong indices is infinite.", "anchors": ["pynitf/nitf_field.py:NitfLoop.keys", "pynitf/nitf_field.py:NitfLoop.check_index", "pynitf/nitf_field.py:NitfLoop.shape", "pynitf/nitf_field.py:NitfLoop.to_list"]}
{"id": "C11", "title": "Assigning variable-length data keeps its length field consistent", "statement": "After assigning data to a variable-size binary/text field whose size is given by another field, the size field equals the data length (plus the declared offset, 0 for empty data), the data reads back exactly, and the structure's written form contains exactly that data. With size_not_updated data of another length is rejected.", "quantifier": "all data lengths, offsets, positions, prior states", "why_tests_cant": "Needs every length including 0 and field-width overflow.", "anchors": ["pynitf/nitf_field.py:NitfField._set_size", "pynitf/nitf_field.py:FieldData", "pynitf/nitf_field.py:BytesFieldData"]}
{"id": "C12", "title": "In-place update equals a full rewrite", "statement": "After a structure has been written, update_field on a field that no size/condition/loop depends on overwrites exactly that field's bytes in the file: the file becomes what writing the updated structure from scratch would give, and nothing before or after the structure changes; the file position is unchanged.", "quantifier": "all descriptions, all fields, all files around the structure, all update sequences", "why_tests_cant": "Quantifies over surrounding file content and sequences of updates (the header length fields are patched this way).", "anchors": ["pynitf/nitf_field.py:NitfField.update_file", "pynitf/nitf_field.py:FieldStruct.update_field", "pynitf/nitf_segment.py:NitfSegment._update_file_header"]}
{"id": "C13", "title": "Raw bytes of a field are those read until it is assigned", "statement": "get_raw_bytes returns the exact bytes read for a field until that field is assigned; after an assignment it returns the formatted new value.", "quantifier": "all read/assign sequences", "why_tests_cant": "History property.", "anchors": ["pynitf/nitf_field.py:NitfField.get_raw_bytes", "pynitf/nitf_field.py:NitfField.read_from_file", "pynitf/nitf_field.py:NitfField.__setitem__"]}
{"id": "C14", "title": "Delayed read is indistinguishable from immediate read", "statement": "After read_from_file(delayed_read=True) any sequence of field reads gives the same results as after an immediate read, wherever the file position has moved to in between; assignments, raw-byte access and writing behave the same as well.", "quantifier": "all operation sequences", "why_tests_cant": "Order of first access vs assignment is a schedule property.", "anchors": ["pynitf/nitf_field.py:FieldStruct.__getattr__", "pynitf/nitf_field.py:FieldStruct.read_from_file", "pynitf/nitf_field.py:FieldStruct.__setattr__"]}
{"id": "C15", "title": "Binary integer fields round trip", "statement": "For sizes 1,2,3,4,8 bytes, signed or not, assigning an in-range integer stores its big-endian representation of that many bytes and reads back the same integer; out-of-range integers and other sizes raise and any byte string of the right length is read and re-packed to itself.", "quantifier": "all integers, all byte strings, all sizes and signedness", "why_tests_cant": "2^64 values per width.", "anchors": ["pynitf/nitf_field.py:IntFieldData.pack", "pynitf/nitf_field.py:IntFieldData.unpack"]}
{"id": "C16", "title": "Decimal integer text codec", "statement": "An integer formatted with zero padding to width n has length n exactly when it fits, parses back to itself, and any zero/sign/space padded decimal text parses to the number it denotes.", "quantifier": "all integers, widths, texts", "why_tests_cant": "Unbounded integers; sign handling at the width boundary.", "anchors": ["pynitf/nitf_field.py:NitfField._format_val"]}
{"id": "C17", "title": "float_to_fixed_width gives the best fixed-point text", "statement": "For a finite number n and width w>=2 the result has at most w characters, is within half a unit in its last printed place of n, uses the largest number of decimals (up to w-2) that fits, and an error is raised exactly when even zero decimals do not fit.", "quantifier": "all rationals, all widths", "why_tests_cant": "Rounding carries change the length (9.99 -> 10.0); infinitely many inputs.", "anchors": ["pynitf/nitf_field.py:float_to_fixed_width"]}
{"id": "C18", "title": "Deep copy and pickle give an equal and independent structure", "statement": "copy.deepcopy / pickle of a writable structure gives a structure that reads the same at every field and index, and later assignments to either do not affect the other.", "quantifier": "all descriptions, states, later operation sequences", "why_tests_cant": "Requires the round-trip over all contents.", "anchors": ["pynitf/nitf_field.py:FieldStruct.__deepcopy__", "pynitf/nitf_field.py:FieldStruct.__getstate__", "pynitf/nitf_field.py:FieldStruct.__setstate__"]}
{"id": "C19", "title": "TRE record framing", "statement": "A written TRE is its 6-character tag, the 5-digit length of its body, and the body; bodies longer than 99999 bytes are refused; reading the record back with the class registered for that tag gives the same fields and consumes exactly the record; a record whose length field disagrees with its content is refused.", "quantifier": "all TRE contents and tags", "why_tests_cant": "All bodies/lengths.", "anchors": ["pynitf/nitf_tre.py:Tre.write_to_file", "pynitf/nitf_tre.py:Tre.read_from_file", "pynitf/nitf_tre.py:TreUnknown"]}
{"id": "C20", "title": "A TRE stream decodes to the list that was encoded", "statement": "Decoding the concatenation of written TREs (registered or unknown) gives the same TREs in the same order, each with the same content.", "quantifier": "all lists of TREs, all registries", "why_tests_cant": "Unbounded lists, arbitrary binary bodies that may look like tags.", "anchors": ["pynitf/nitf_tre.py:read_tre_data"]}
{"id": "C21", "title": "Unknown or malformed TREs survive byte for byte", "statement": "Decoding any well-framed TRE stream and encoding the resulting list reproduces the records that no class could parse byte for byte, at the same positions, and never lets one malformed record disturb its neighbours.", "quantifier": "all byte streams, all registries of parsers", "why_tests_cant": "Malformed inputs are unbounded.", "anchors": ["pynitf/nitf_tre.py:read_tre_data", "pynitf/nitf_tre.py:TreUnknown"]}
{"id": "C22", "title": "TRE placement loses and duplicates nothing", "statement": "Preparing a list of TREs for writing puts each TRE in exactly one of the header areas or the overflow DES, whole, keeps the relative order within each area, and no header area exceeds 99999 bytes with its overflow field; an overflow DES exists iff some TRE did not fit, and the header then points to it.", "quantifier": "all TRE lists and sizes, any number of areas", "why_tests_cant": "First-fit over arbitrary size sequences.", "anchors": ["pynitf/nitf_tre.py:prepare_tre_write"]}
{"id": "C23", "title": "TREs written are the TREs read back", "statement": "Reading the header areas and overflow DES prepared for a TRE list gives back the same TREs (as a multiset; same order when everything fits in the first area).", "quantifier": "all TRE lists, all headers", "why_tests_cant": "Combination of placement, stream codec and overflow indirection.", "anchors": ["pynitf/nitf_tre.py:read_tre", "pynitf/nitf_tre.py:prepare_tre_write"]}
{"id": "C24", "title": "Removed TREs are not written", "statement": "After preparing for write, the TREs stored in the header/overflow are those in the current TRE list, regardless of what an earlier read or write left in the header.", "quantifier": "all histories of edits and writes", "why_tests_cant": "History property: stale data from an earlier write.", "anchors": ["pynitf/nitf_tre.py:prepare_tre_write", "pynitf/nitf_file.py:NitfFile.write"]}
{"id": "C25", "title": "File header describes the file", "statement": "After NitfFile.write, the header's counts, per-segment subheader/data lengths, header length and file length equal the actual ones, and the file is exactly header followed by the segments in order image, graphic, text, DES, RES.", "quantifier": "all files: any number and kind of segments, any contents", "why_tests_cant": "The header is written before the sizes are known and patched afterwards; all sizes.", "anchors": ["pynitf/nitf_file.py:NitfFile.write", "pynitf/nitf_segment.py:NitfSegment.write_to_file", "pynitf/nitf_segment.py:NitfSegment._update_file_header"]}
{"id": "C26", "title": "File round trip", "statement": "Reading a written file gives the same number of segments of each kind in the same order, each with the same subheader fields, data bytes and TREs.", "quantifier": "all files", "why_tests_cant": "Whole-object round trip over all contents.", "anchors": ["pynitf/nitf_file.py:NitfFile.read", "pynitf/nitf_file.py:NitfFile.write"]}
{"id": "C27", "title": "Writing is repeatable", "statement": "Writing the same NitfFile object twice gives identical files, and writing does not change the user-visible TREs or the non-overflow segments.", "quantifier": "all files, any number of writes", "why_tests_cant": "History property (overflow DES are created and removed, header values are mutated).", "anchors": ["pynitf/nitf_file.py:NitfFile.write", "pynitf/nitf_tre.py:prepare_tre_write"]}
{"id": "C28", "title": "Segment enumeration and lookup", "statement": "segments() yields every segment exactly once in file order with its index within its kind; iseg_by_iid1 returns exactly the matching image segments in order; iseg_by_iid1_single raises unless exactly one matches; iseg_by_idlvl returns the first match or raises KeyError.", "quantifier": "all files, keys", "why_tests_cant": "All segment populations, duplicates and absent keys.", "anchors": ["pynitf/nitf_file.py:NitfFile.segments", "pynitf/nitf_file.py:NitfFile.iseg_by_iid1_single", "pynitf/nitf_file.py:NitfFile.iseg_by_idlvl"]}
{"id": "C29", "title": "TRE lookup", "statement": "find_tre returns exactly the TREs with the tag in order; find_one_tre returns None/the TRE/an error for 0/1/more; find_exactly_one_tre raises unless exactly one.", "quantifier": "all TRE lists, tags", "why_tests_cant": "All multiplicities.", "anchors": ["pynitf/nitf_tre.py:_find_tre", "pynitf/nitf_tre.py:_find_one_tre", "pynitf/nitf_tre.py:_find_exactly_one_tre"]}
{"id": "C30", "title": "Handler dispatch picks the highest-priority claimant independent of registration order", "statement": "For any sequence of handler registrations and removals, handling an object uses the unique highest-priority registered handler that claims it, raises if two of that priority claim it or if none does; registration order is irrelevant and lower-priority handlers are not consulted once one claims.", "quantifier": "all sequences of add/discard/clear, all claim functions, all set iteration orders", "why_tests_cant": "Schedules of registration and set iteration order.", "anchors": ["pynitf/priority_handle_set.py:PriorityHandleSet"]}
{"id": "C31", "title": "Copied handler sets are independent", "statement": "A copied handler set contains the same handlers and later changes to either do not affect the other; set operations behave as on the mathematical set of (handler, priority) pairs.", "quantifier": "all operation sequences on both copies", "why_tests_cant": "History property.", "anchors": ["pynitf/priority_handle_set.py:PriorityHandleSet.__copy__"]}
{"id": "C32", "title": "Segment hooks run once each", "statement": "Each life-cycle event calls every registered hook exactly once, on the segment concerned; the TRE print hook stops at and reports the first hook that says it handled the TRE; adding a hook twice is the same as adding it once and discarding restores.", "quantifier": "all hook registrations/removals and events, all orders the set may give", "why_tests_cant": "Sequences of registrations.", "anchors": ["pynitf/nitf_segment_hook.py:NitfSegmentHookSet"]}
{"id": "C33", "title": "Security settings round trip", "statement": "Setting security on a header and getting it back gives equal values for every field the header has and defaults elsewhere, and comparing two security objects is an equivalence that distinguishes every security marking.", "quantifier": "all security values and headers", "why_tests_cant": "All values; equality must consider each attribute.", "anchors": ["pynitf/nitf_security.py:NitfSecurity"]}
{"id": "C34", "title": "IGEOLO corner coordinates round trip", "statement": "Corner coordinates set on an image subheader read back equal within the resolution of the encoding, for decimal degrees, geographic (DMS) and UTM encodings and occupy exactly 60 characters.", "quantifier": "all coordinates in range, all corners, all encodings", "why_tests_cant": "Continuous domain with rounding carries (59.9s -> 60s) and sign/hemisphere cases.", "anchors": ["pynitf/nitf_image_subheader.py:nitf_write_igeolo", "pynitf/nitf_image_subheader.py:nitf_read_igeolo"]}
{"id": "C35", "title": "Band count and pixel type", "statement": "Setting the number of bands (1..99999) or the pixel type on an image subheader and reading it back gives the same band count / the big-endian form of the type, also after a write and read.", "quantifier": "all band counts, all supported types, all prior states", "why_tests_cant": "All counts around the 9/10 switch and every prior state.", "anchors": ["pynitf/nitf_image_subheader.py:NitfImageSubheader.number_band", "pynitf/nitf_image_subheader.py:NitfImageSubheader.dtype"]}
{"id": "C36", "title": "Image data written block by block is complete", "statement": "Writing an image produces every pixel exactly once in the order the image mode prescribes, with size bands*rows*columns*bytes; reading any pixel of the written data back returns the pixel that was supplied.", "quantifier": "all shapes, modes and pixel contents", "why_tests_cant": "Unbounded shapes; block-boundary arithmetic.", "anchors": ["pynitf/nitf_image.py:NitfImageWriteDataOnDemand", "pynitf/nitf_image.py:NitfImageReadNumpy", "pynitf/nitf_image.py:NitfImageWriteNumpy"]}
{"id": "C37", "title": "Engineering data (ENGRDA) behaves as a map", "statement": "Any sequence of assignments to an ENGRDA TRE behaves as a dictionary from label to (data, units): lookups return the last assigned value, new labels append, others are unaffected, and the record count equals the number of distinct labels.", "quantifier": "all assignment sequences", "why_tests_cant": "History property.", "anchors": ["pynitf/nitf_tre_engrda.py:TreENGRDA"]}
{"id": "C38", "title": "Associated elements of a DES are kept without duplicates", "statement": "Adding associated elements / display levels keeps each once, in first-insertion order, keeps the count field consistent, and survives write/read.", "quantifier": "all sequences of additions", "why_tests_cant": "History property.", "anchors": ["pynitf/nitf_des_associated_user_subheader.py"]}
{"id": "C39", "title": "External content header round trip", "statement": "The content header of an EXT_DEF_CONTENT DES parses back to the values it was generated from.", "quantifier": "all header values", "why_tests_cant": "All byte strings including separators.", "anchors": ["pynitf/nitf_des_ext_def_content.py:DesExtContentHeader"]}
{"id": "C40", "title": "Comparing structures: no false alarms, no missed differences", "statement": "Comparing a structure with itself (or an equal one) reports no difference under any configuration; two structures that differ in a compared non-float field are reported different; excluded fields never matter; the result does not depend on argument order for exact comparisons.", "quantifier": "all structures, configurations", "why_tests_cant": "All pairs of structures.", "anchors": ["pynitf/nitf_field.py:FieldStructDiff.compare_obj", "pynitf/nitf_field.py:FieldStructDiff._cmp_nitf_field", "pynitf/nitf_field.py:NitfLoop.is_shape_equal"]}
{"id": "C41", "title": "Merged file takes each part from the first file that has it", "statement": "Each part of a merged file (header, segment lists, TREs) is that of the first file in the list for which it is non-empty.", "quantifier": "all lists of files", "why_tests_cant": "All combinations of empty/non-empty parts.", "anchors": ["pynitf/nitf_file_merge.py:NitfFileMerge"]}
{"id": "C42", "title": "Shipped descriptions are well formed", "statement": "Every TRE, DES and subheader description shipped with the library refers only to earlier fields in scope with the right number of indices, so C01-C07 apply to each; every field name is unique within its structure.", "quantifier": "all shipped descriptions (a finite, complete list)", "why_tests_cant": "Needs the generic theorem; a test exercises one value per TRE at best.", "anchors": ["pynitf/nitf_tre_*.py", "pynitf/nitf_des_*.py", "pynitf/*_subheader.py", "pynitf/nitf_file_header.py"]}
{"id": "C43", "title": "RPC coefficient format", "statement": "Every RPC coefficient accepted is written in exactly 12 characters and reads back within the printed precision; larger exponents are refused.", "quantifier": "all coefficients", "why_tests_cant": "Continuous domain and exponent boundaries.", "anchors": ["pynitf/nitf_tre_rpc.py:_tre_rpc_coeff_format"]}
{"id": "C44", "title": "Unknown segment data is skipped exactly", "statement": "When a segment's data cannot be interpreted it is skipped by exactly the length given in the file header so that every following segment is still read at its right position.", "quantifier": "all files, all subsets of unreadable segments", "why_tests_cant": "Positions depend on all preceding sizes.", "anchors": ["pynitf/nitf_segment_data_handle.py:NitfDataPlaceHolder", "pynitf/nitf_file.py:NitfFile.read"]}
{"id": "C45", "title": "Associated elements resolve to the right objects of a file", "statement": "Looking up the associated elements of a DES in a file gives one result per listed identifier, in the order of the list: the last DES or CSEXRB TRE of the file with exactly that identifier, and None exactly when the file has none.", "quantifier": "all identifier lists and all files", "why_tests_cant": "Files with missing, repeated or foreign identifiers in any arrangement.", "anchors": ["pynitf/nitf_des_associated_user_subheader.py:_assoc_elem"]}
{"id": "C46", "title": "Reading and writing again gives the same bytes", "statement": "A file that was written, read back and written again without changes has the same bytes, and so on for any number of rounds, as long as no TRE overflow segment was needed and the reader keeps the data of every segment.", "quantifier": "all files the library can write, all handler sets, any number of rounds", "why_tests_cant": "Needs every combination of segments, TREs and field values; a test looks at a few files.", "anchors": ["pynitf/nitf_file.py:NitfFile.read", "pynitf/nitf_file.py:NitfFile.write", "pynitf/nitf_tre.py:prepare_tre_write"]}
{"id": "C47", "title": "Comparing files finds every difference it should and raises no false alarm", "statement": "Two files reported the same have, after what the configuration skips, equally many TREs and segments of each kind, and taken in order these have the same tags, the same indices and equal (for floats and pixels: close) values in every field that is compared, the same user subheaders, texts, DES fields and images; two files that agree on everything compared are reported the same without an exception; and every file that was read with classes the comparison knows, and whose texts are UTF-8, is the same as itself.", "quantifier": "all pairs of files, all configurations, all files that can be read", "why_tests_cant": "Two files can differ in any one of thousands of places, and the absence of an exception has to hold for every file; tests compare a few pairs.", "anchors": ["pynitf/nitf_file_diff.py:NitfFileHandle", "pynitf/nitf_file_diff.py:SegmentDiff", "pynitf/nitf_tre.py:TreUnknownDiff", "pynitf/nitf_image.py:ImageWithSubsetDiff", "pynitf/nitf_des.py:DesFieldStructDiff", "pynitf/nitf_text.py:TextStrDiff"]}
{"id": "C48", "title": "Listing and printing show exactly what the structure holds", "statement": "The nested lists of a field (to_list) have the value at [i][j] exactly where the field has the index [i,j], each list being as long as the loop count; values() is that list from left to right; items() pairs each index with its value, once and in C order; listing a structure gives each field name once with everything readable under it; printing it shows the value of every named field at each of its indices on a line of its own, once and in table order, with one heading per loop; and none of this fails for a structure that was just read.", "quantifier": "all tables, all states, all byte strings that can be read", "why_tests_cant": "The statement ranges over nested, conditional and empty loops and all values; tests print a few structures and compare the text with a saved copy.", "anchors": ["pynitf/nitf_field.py:NitfLoop.to_list", "pynitf/nitf_field.py:NitfField.values", "pynitf/nitf_field.py:FieldStruct.items", "pynitf/nitf_field.py:NitfLoop.print_to_fh", "pynitf/nitf_field.py:FieldStruct.__str__"]}
{"id": "C49", "title": "ILLUMA writes its schema's XML and reads it back", "statement": "An ILLUMA record is a well-formed XML document in the schema's namespace with one child per attribute that has a value, under the schema's name for that attribute and in the schema's order; reading sets each attribute to the number in the first child of its name, leaves attributes without such a child alone, and fails exactly when one of these children holds no number; a record that is written is read back by a new object with the same values, consuming exactly the record.", "quantifier": "all objects with None or float attributes, all documents of plain XML, all following bytes", "why_tests_cant": "Which of eleven optional values are present, their texts, and documents written by other programs (without namespace, with repeated or nested elements) are unbounded; the tests write three objects and read them back.", "anchors": ["pynitf/nitf_tre_illuma.py:TreILLUMA.tre_bytes", "pynitf/nitf_tre_illuma.py:TreILLUMA.read_from_tre_bytes", "pynitf/nitf_tre_illuma.py:TreILLUMA.read_from_file"]}
{"id": "C50", "title": "A delta merged with another file shows the file it was made of", "statement": "A delta holds copies of the header, the TREs, the image, text and DES segments without overflow, with the data of texts and of DESs of fields; merging it with another file shows the delta's header, its TREs and segments wherever it has any and otherwise the other file's, a segment without data of its own taking the data of the one segment of the other file with the same names, and fails exactly if there is not one; and comparing a file that was read with the merger of its delta, saved and loaded, and any file that has the same image data (and graphics and reserved segments, and no list where the first has none) says they are the same, whatever the other file's fields, TREs, texts and DESs are.", "quantifier": "all files that can be read, all files to merge with, all configurations of the comparison that leave out only the fields holding TREs", "why_tests_cant": "The two files can differ in any field, TRE, text or DES, and the copies go through writing and reading three times; the test makes one delta of one pair of files.", "anchors": ["pynitf/nitf_file_json.py:NitfFileJson.create_delta", "pynitf/nitf_file_json.py:NitfSegmentJson", "pynitf/nitf_file_merge.py:NitfFileMerge", "pynitf/nitf_field.py:FieldStruct.__deepcopy__"]}
{"id": "C51", "title": "Expressions of the tables mean what they mean in python", "statement": "Evaluating a condition, size or loop count gives exactly the value it has by the rules of python: the name of a field is the last row with that name, indexed by the leading index variables if it is in a loop; // rounds down, int((a/2)*b) towards zero, & works on bits, == and in compare numbers by value and other things by kind, and/if follow the truth value and evaluate only what they need, int() takes numbers and exactly the texts that are numbers, rstrip() removes exactly the white space at the end; and it fails exactly if these rules give no value.", "quantifier": "all well-formed tables, all stored values, all expressions of the modelled operators, all indices", "why_tests_cant": "Rounding of negative numbers, truth values and evaluation order matter only for values the test files do not have.", "anchors": ["pynitf/nitf_field.py:_eval_or_exec_expr", "pynitf/nitf_field.py:NitfField.check_condition", "pynitf/nitf_field.py:NitfField.size", "pynitf/nitf_field.py:NitfLoop.shape"]}
{"id": "C52", "title": "A field shows what it holds, converted to its type", "statement": "Reading a name gives a value exactly if the index has one component for each loop and the last is within its count; it is None if the condition does not hold, else the computed value or what was put there, or else the default of the row, or None, the empty text or 0; converted to the type of the field (text without the white space at its end, numbers from text, binary numbers most significant byte first in two's complement), fill bytes of an optional field reading as None; and no field shows two values. A new structure shows its defaults and can be written.", "quantifier": "all well-formed tables, all stored values, all names and indices; for the last part all tables of the library", "why_tests_cant": "The rules interact (a default is converted like an assigned value, a literal like bytes read) and the tests read fields they have set.", "anchors": ["pynitf/nitf_field.py:NitfField.__getitem__", "pynitf/nitf_field.py:NitfField.__init__", "pynitf/nitf_field.py:FieldData.__getitem__", "pynitf/nitf_field.py:IntFieldData.unpack", "pynitf/nitf_field.py:NitfLoop.check_index"]}
{"id": "C53", "title": "Printing a DES of fields leaves it as it is", "statement": "str(des) of a DES made of fields raises nothing if the DES can be written, changes no value shown, the data kept after the fields or the bytes written, and printing again gives the same text. Since it writes the object and reads it back into itself: an object without a segment, or whose fields take the size of the segment it was read from, shows afterwards what survives being written; an object that was read and not changed keeps its data and size; the second text is the first; and reading agrees with the reader of files.", "quantifier": "all well-formed tables, all values, all segment sizes, data after the fields and files", "why_tests_cant": "The tests print objects whose values are exactly representable and whose length did not change; printing is not expected to have effects, so none are looked for.", "anchors": ["pynitf/nitf_des.py:NitfDesFieldStruct.__str__", "pynitf/nitf_des.py:NitfDesFieldStruct.update_raw_field", "pynitf/nitf_des.py:NitfDesFieldStruct.read_from_file", "pynitf/nitf_des.py:NitfDesFieldStruct.write_to_file"]}
{"id": "C54", "title": "The CSEXRB TRE names its DESs once each and finds them", "statement": "Adding DESs or identifiers to a CSEXRB TRE succeeds whatever it held, keeps each identifier once, in the order of the first additions, with the count field equal to their number and every other field showing what it showed; an object without identifier is refused. The TRE's own identifier is made only if empty and never changes afterwards. Both survive writing and reading. Looking up gives one result for each identifier in order: the last DES of the file with it, or None; DESs with different identifiers that were added are found in that order, also after the TRE was written and read.", "quantifier": "all TREs, all sequences of additions, all lists of DESs of a file, all identifiers", "why_tests_cant": "The tests add at most a few fixed identifiers to a new TRE, and none twice, so repetition, order and white space are never seen.", "anchors": ["pynitf/nitf_tre_csexrb.py:TreCSEXRB.add_assoc_elem_id", "pynitf/nitf_tre_csexrb.py:TreCSEXRB.add_assoc_elem", "pynitf/nitf_tre_csexrb.py:TreCSEXRB.assoc_elem", "pynitf/nitf_tre_csexrb.py:TreCSEXRB.generate_uuid_if_needed"]}
{"id": "C55", "title": "A structure can be written exactly if what it shows fits, and the bytes are those the table says", "statement": "Writing a structure gives, for every position in the order of the table, nothing if its condition does not hold, and otherwise exactly as many bytes as the size says: the literal held, the value formatted and padded, or the bytes held. Writing succeeds if and only if the table unrolls and everything fits: texts are one byte per character and not longer than the field, integers have at most as many digits as the field has characters (one less if negative). So a structure that was written shows no text longer than its field and no integer with more digits, and a file, an associated DES and a CSEXRB TRE that were written stay within the limits of the standard.", "quantifier": "all tables that are well formed, all states, all values, all indices", "why_tests_cant": "The tests write values that fit; that nothing too big is ever cut off, and nothing that fits refused, needs all values of all fields.", "anchors": ["pynitf/nitf_field.py:FieldStruct.write_to_file", "pynitf/nitf_field.py:NitfField.write_to_file", "pynitf/nitf_field.py:NitfField.bytes"]}
{"id": "C56", "title": "Image data survives being written again, read into memory, changed in place and copied", "statement": "(1) An image that was read as an array, written again anywhere in another file, has exactly its bytes, and the reader shows the same pixels there. (2) Reading an image into memory gives the same pixels, and leaves the file at the same place, as mapping the file. (3) After an image made on demand was written, its array shows the pixels supplied, and any assignments to pixels of that array leave a file that is as if the image had been written with those pixels, with nothing else changed. (4) A deep copy of an image, written with its own subheader, reads as the pixels of the image copied.", "quantifier": "all subheaders the reader takes, all files, positions, sizes, pixel types, modes, pixel values and sequences of assignments", "why_tests_cant": "The tests read, update and copy a few small images of one band; sizes beyond the buffer of 1 MiB, several bands with interleaved pixels and files that are cut off are not covered.", "anchors": ["pynitf/nitf_image.py:NitfImageReadNumpy.read_from_file", "pynitf/nitf_image.py:NitfImageReadNumpy.write_to_file", "pynitf/nitf_image.py:NitfImagePlaceHolder.write_to_file", "pynitf/nitf_image.py:NitfImageWriteDataOnDemand.write_to_file", "pynitf/nitf_image.py:_deepcopy"]}
{"id": "C57", "title": "What a structure shows after reading a record comes from the record alone", "statement": "Reading a record into a structure succeeds or fails, and consumes the same bytes, whatever the structure held before; afterwards the same indices exist, every field shows the same value, a field that is present keeps the same bytes, and the same record is written. A structure used for one record after another shows each as a new one would.", "quantifier": "all well-formed tables, all states of the structure before, all inputs, literal or not", "why_tests_cant": "The tests read into new objects; leftovers show only when a loop shrinks or a field becomes absent between two records read into one object.", "anchors": ["pynitf/nitf_field.py:NitfField.read_from_file", "pynitf/nitf_field.py:NitfLoop.read_from_file", "pynitf/nitf_field.py:FieldStruct.read_from_file", "pynitf/nitf_tre.py:Tre.update_raw_field"]}
{"id": "C58", "title": "A TRE with an implementation object writes the object and shows it as of the last update", "statement": "For a TRE class whose content is an object of another library: (1) after any calls the record written has the tag, the length and the bytes of the object given last, by assignment or by reading, and nothing else decides what is written; (2) no field can be assigned; (3) after a record was read or update_raw_field was called, each field shows what it is in the bytes the object gave then, until the fields are taken again; (4) a record written is read back completely, by any class whose reading gives back an object with the same bytes.", "quantifier": "all classes (tag, table, tre_string and read_tre_string arbitrary), all sequences of calls, all values and bytes", "why_tests_cant": "The package has no implementation class; the tests have one example that is read once.", "anchors": ["pynitf/nitf_tre.py:Tre.tre_bytes", "pynitf/nitf_tre.py:Tre.read_from_tre_bytes", "pynitf/nitf_tre.py:Tre.read_from_file", "pynitf/nitf_tre.py:Tre.write_to_file", "pynitf/nitf_tre.py:Tre.update_raw_field", "pynitf/nitf_field.py:NitfField.__setitem__", "pynitf/nitf_field.py:FieldStruct.__getattr__"]}
{"id": "C59", "title": "The cache of file maps behaves as a dictionary of what is alive", "statement": "WeakKeyValueDict, after any history of calls and of objects dying (in any order, any number at a time), answers every call as a plain dictionary from which an entry is taken as soon as its key or its value dies; in particular an image reading from a file handle gets the map last bound to that handle if both live, else the new one, and the next image gets the same.", "quantifier": "all histories of assignments, lookups, deletions, pops, updates and deaths of objects; all choices of which objects can be weakly referenced", "why_tests_cant": "Which object dies when depends on the garbage collector; a test sees one order, and stale callbacks only matter when a key is bound again.", "anchors": ["pynitf/weak_key_value_dict.py:WeakKeyValueDict.__getitem__", "pynitf/weak_key_value_dict.py:WeakKeyValueDict.__setitem__", "pynitf/weak_key_value_dict.py:WeakKeyValueDict._create_value", "pynitf/weak_key_value_dict.py:WeakKeyValueDict.pop", "pynitf/weak_key_value_dict.py:WeakKeyValueDict.get", "pynitf/nitf_image.py:NitfImageReadNumpy.read_from_file"]}
{"id": "C60", "title": "A DES with an implementation object writes the object and shows it as of the last update", "statement": "For a DES class whose content is an object of another library: (1) after any calls what is written is what the object given last, by assignment or by reading, writes; (2) the fields can be taken from the object exactly if its bytes are readable and fill the segment, or data may follow the fields; (3) after a segment was read, update_raw_field was called or the DES was printed raw, each field shows what it is in the bytes the object wrote then, until the fields are taken again; (4) what was written is read back, by any class whose reading gives an object writing the same bytes. (5) An assigned field is written, or refused.", "quantifier": "all classes (tag, table, des_read and des_write arbitrary), all sequences of calls, all values, files and segment sizes", "why_tests_cant": "The package has no such class; the tests have one example that is written and read once.", "anchors": ["pynitf/nitf_des.py:NitfDesFieldStruct.read_from_file", "pynitf/nitf_des.py:NitfDesFieldStruct.write_to_file", "pynitf/nitf_des.py:NitfDesFieldStruct.update_raw_field", "pynitf/nitf_des.py:NitfDesFieldStruct.__str__", "pynitf/nitf_field.py:NitfField.__setitem__"]}
{"id": "C61", "title": "Command line options as attributes have the value and type of what was typed", "statement": "(1) A text given as option is an integer exactly if it is a sign or none and digits, a float exactly if it is another plain decimal number (digits with or without a point, exponent or none), with that value, and otherwise is given as it is; nothing is refused. (2) An attribute is the option of that name: of the argument name, <name>, --name and --name with dashes for underscores the first there is; AttributeError, and not contained, exactly if there is none. (3) A name typed is given as typed.", "quantifier": "all texts, all dictionaries of options, all names", "why_tests_cant": "There is no test of this module; the three patterns overlap and the empty parts of the second are easily got wrong.", "anchors": ["pynitf/docopt_simple.py:DocOptSimple.__getattr__", "pynitf/docopt_simple.py:DocOptSimple.__contains__", "pynitf/docopt_simple.py:DocOptSimple.__find_type"]}
{"id": "C62", "title": "The log of a comparison says what the verdict says, and where", "statement": "(1) Two files are found to differ exactly if a difference that counts is logged; a difference in a field named in exclude_but_warn is logged as ignored only. (2) Every difference logged belongs to a part that is not found to be the same (file header, a TRE, subheader, user subheader, TREs or data of a pair of segments, a number of TREs or segments), and its context names this part; also if an exception ends the comparison. (3) Every pair of segments or TREs found to differ has a difference of its own in the log. (4) Of an array the elements that differ are logged, and only those, and the summary counts them. (5) nitf_diff ends with status 0 exactly if the files were compared and found the same, with a difference on the screen exactly if it found them to differ, and quietly prints nothing.", "quantifier": "all pairs of files, all configurations, all options of the tool", "why_tests_cant": "The log is not looked at by the tests, the tool is not run by them; each handler keeps its own verdict and writes its own messages.", "anchors": ["pynitf/nitf_file_diff.py:NitfDiff.diff_context", "pynitf/nitf_file_diff.py:NitfFileHandle.handle_diff", "pynitf/nitf_file_diff.py:SegmentDiff.handle_diff", "pynitf/nitf_field.py:FieldStructDiff.compare_obj", "pynitf/nitf_field.py:FieldStructDiff._cmp_nitf_field", "pynitf/nitf_diff_handle.py:DiffContextFilter.filter"]}
{"id": "C63", "title": "Printing and summarising a file tells every part of it once, and changes nothing", "statement": "(1) The text of a file consists of the file header, the file level TREs, and for every kind of segment in order one section per segment, headed by its number; each section holds what the hooks write, the subheader, the user subheader, the TREs (except those a hook takes over) and the data, once and in this order; an overflow segment is one line. (2) report_raw gives the text without the hooks that are removed for it. (3) Printing changes at most the fields of DESs; a file that was read is written the same and printed the same afterwards. (4) A file that was read can be printed exactly if its text segments are UTF-8 and its DESs of fields can be written. (5) The summary of a file that was read never raises, and the numbers of segments in it are those of the sections.", "quantifier": "all files, all classes registered, all hooks", "why_tests_cant": "The tests print a few files and look at none of the text; whether printing changes what is written is not tested.", "anchors": ["pynitf/nitf_file.py:NitfFile.__str__", "pynitf/nitf_file.py:NitfFile.summary", "pynitf/nitf_segment.py:NitfSegment.__str__", "pynitf/nitf_segment.py:NitfSegment.summary", "pynitf/nitf_segment.py:NitfDesSegment.__str__", "pynitf/nitf_segment_hook.py:NitfSegmentHookSet.before_str_tre_hook"]}
{"id": "C64", "title": "A segment and its data show the same subheader, and segments are separate", "statement": "(1) After every sequence of making data objects and segments, reading segments, assigning and changing subheaders and user subheaders through segments and through data, a segment and its data show the same subheader and the same user subheader. (2) What is done through one of them is seen through both: an assignment gives what was assigned, a change the changed contents, reading what the file holds, and the other parts stay. (3) What is done through a segment, its data, or data not yet used for a segment is not seen through any other segment.", "quantifier": "all sequences of operations of any length, all contents", "why_tests_cant": "The tests change a few fields of a few segments; whether two objects still refer to the same header after a long history needs all histories.", "anchors": ["pynitf/nitf_segment.py:NitfSharedHeader", "pynitf/nitf_segment.py:NitfSegment.__init__", "pynitf/nitf_segment.py:NitfSegment.subheader", "pynitf/nitf_segment.py:NitfSegment.user_subheader", "pynitf/nitf_segment.py:NitfSegment.read_from_file", "pynitf/nitf_segment_data_handle.py:NitfData.__init__", "pynitf/nitf_segment_data_handle.py:NitfSegmentDataHandleSet.handle_h"]}
{"id": "C65", "title": "Set operators of handler sets are those of sets of (handler, priority) pairs", "statement": "After every history of making, filling, emptying and copying handler sets and of &, |, -, ^ and comparisons between them: (1) every set, the results included, holds each pair once and exactly the pairs of the mathematical set, operands and other sets being unchanged; (2) <=, <, >=, >, ==, != and isdisjoint answer what they mean for the sets of pairs, although `in` adds empty priorities to the set asked and the comparisons are decided by lengths first; (3) each operator gives a new set.", "quantifier": "all histories of any length, all handlers with decidable equality, all integer priorities", "why_tests_cant": "No test uses the operators; aliasing between the inner sets of operands and results shows only in histories.", "anchors": ["pynitf/priority_handle_set.py:PriorityHandleSet", "pynitf/priority_handle_set.py:PriorityHandleSet.__contains__", "pynitf/priority_handle_set.py:PriorityHandleSet.__len__", "pynitf/priority_handle_set.py:PriorityHandleSet.__iter__", "pynitf/priority_handle_set.py:PriorityHandleSet._from_iterable"]}
{"id": "C66", "title": "Fitting a number with maximum_precision keeps within the width and is as precise as the format allows", "statement": "`float_to_fixed_width(n, w, maximum_precision=True)`: (1) numbers from 10^(5-w) to 10^(w-5) are written as without the option, all others in exponent form with the most digits for which the text fits into w characters; (2) it fails exactly if not even the text without decimals fits; (3) reading the text gives the number within half a unit of the last digit; (4) with six or more characters every number that is 0 or from 1e-99 to 9.5e99 in size fits; (5) the text is at least as close to the number as the one without the option.", "quantifier": "all finite numbers and all widths", "why_tests_cant": "The test calls it with one number and looks at the length of the text only; the choice of the format has bounds that depend on the width, and rounding can carry into another digit of the exponent.", "anchors": ["pynitf/nitf_field.py:float_to_fixed_width"]}
{"id": "C67", "title": "The class reading a user subheader is the registered one of the highest priority, whenever it was registered", "statement": "`user_subheader_cls` of a handler set, after any program that makes handlers, registers classes with them and works on handler sets: (1) for a DES or RES the answer is r exactly if one handler in the set says r and all others of the same or a higher priority decline, whatever the order of iteration; a table says the class registered last under the id, also if that was after the set was copied, and None for any other id; (2) other segments have none and no handler is asked; (3) operations on other sets, such as adding default handles after a file was made, change nothing; (4) two tables for the same class of segments at one priority make every such segment fail; (5) the sets as shipped answer as a lookup in the two tables; (6) a class registered with a handler of lower priority is used for ids no other handler has a class for.", "quantifier": "all programs of such operations, all handlers with arbitrary answers, all segments and ids", "why_tests_cant": "The tests read files with the default set only; what registering late, copying, priorities and a second table do depends on the whole history, and the order in a python set changes from run to run.", "anchors": ["pynitf/nitf_segment_user_subheader_handle.py:NitfSegmentUserSubheaderHandleSet.user_subheader_cls", "pynitf/nitf_segment_user_subheader_handle.py:DesIdToUSHHandle.user_subheader_cls", "pynitf/priority_handle_set.py:PriorityHandleSet.handle"]}
{"id": "C68", "title": "The grid coordinates of RSMGGA are the numbers that stand in the record, and the attributes of RSM TREs ask the right source", "statement": "(1) After an RSMGGA record was read, `rcoord[i, j]` and `ccoord[i, j]` of every point j of every plane i show what its block of bytes in the record spells: not a number for blanks, otherwise the whole number there divided by 10 to the number of fractional digits plus the reference coordinate, and a ValueError for other text (also for no text); the block is as long as `tnumrd` (`tnumcd`) says; (2) such a coordinate is less than 10^(tnumrd-fnumrd) away from the reference; (3) coordinates can be assigned, and a TRE with a grid that was made by assignments can be written; (4) for a TRE with an implementation object, `edition` and the section numbers are those of the object put in or read last, and nothing is read for that; where the object does not say, `edition` is the field and the section numbers fail; (5) the attribute `edition` shows the same as the field `edition`.", "quantifier": "all records and all structures read into, all points of all planes, all histories of assignments, all classes of implementation objects and all histories of operations on the TRE", "why_tests_cant": "The test reads one record with one grid and never assigns a coordinate; no implementation class is shipped, so the branch asking the object is never run.", "anchors": ["pynitf/nitf_tre_rsmgga.py:RCoord.unpack", "pynitf/nitf_tre_rsmgga.py:CCoord.unpack", "pynitf/nitf_tre_rsmgga.py:TreRSMGGA.edition", "pynitf/nitf_tre_rsmpca.py:TreRSMPCA.row_section_number", "pynitf/nitf_field.py:FieldData.__getitem__"]}
{"id": "C69", "title": "What writing and updating leave in an open file, also when they fail", "statement": "(1) Writing a structure at any position of an open file replaces exactly its length of bytes there, moves the position behind it, changes no value, and afterwards every named field that is there knows its place; (2) if a field cannot be written, the file holds the fields before it in table order and nothing else has changed in the file, the position is behind them, the values are as before, those fields and the failing one know the place they were to have, and all later ones keep the place they had; (3) whatever fails, bytes are put at the position and nowhere else; (4) a failing update changes no byte of the file; (5) a failing update leaves the position of the file.", "quantifier": "all tables, all structures, all files and positions inside them, all fields, indices and values", "why_tests_cant": "The tests write to new files and never let a write or an update fail half way.", "anchors": ["pynitf/nitf_field.py:NitfField.write_to_file", "pynitf/nitf_field.py:NitfField.update_file", "pynitf/nitf_field.py:NitfLoop.write_to_file", "pynitf/nitf_field.py:FieldStruct.update_field"]}
{"id": "C70", "title": "What a failed read leaves behind", "statement": "(1) Reading a record that is cut short anywhere raises; the fields whose blocks are complete, in table order, hold what the whole record gives, every other field and index holds what it held before, and the file is at its end; (2) a block of the right length that cannot be converted raises the conversion's error; the fields before it are read, the field itself keeps its value but shows the new bytes as its raw bytes, later fields are not touched, and the file is behind that block; (3) otherwise the read gives what a read without failure gives; (4) whatever happens, no place in the file is forgotten or changed and bytes are only taken from the front; (5) a delayed read that fails raises once, and later accesses show the structure as the failed read left it; (6) a failed read leaves the structure as it was; (7) after a failed delayed read no access shows a value that is not in the file.", "quantifier": "all tables, all structures, all records, all places to cut, all fields and indices, all blocks that cannot be converted, literal or not", "why_tests_cant": "The tests read complete, convertible records; the state after an exception is never looked at.", "anchors": ["pynitf/nitf_field.py:NitfField.read_from_file", "pynitf/nitf_field.py:NitfLoop.read_from_file", "pynitf/nitf_field.py:FieldStruct.read_from_file", "pynitf/nitf_field.py:FieldStruct.__getattr__"]}
{"id": "C71", "title": "What is noticed when a NITF file has been cut off", "statement": "(1) If a file that has lost its end can still be read, it was cut in the data of its last segment or behind it: file header, number and order of segments, all subheaders and user subheaders, and the data of all segments but the last are those of the whole file, and what the data of the last segment lacks is the beginning of what was cut off; so a file cut anywhere before the data of its last segment always raises; (2) all TREs are those of the whole file unless that last segment is a DES; (3) a file that has lost its end always raises.", "quantifier": "all files, all places to cut, all registered TRE and user subheader classes, all sets of data handlers", "why_tests_cant": "The tests read complete files only; a cut could fall at any byte, under any combination of segments and handlers.", "anchors": ["pynitf/nitf_file.py:NitfFile.read", "pynitf/nitf_segment.py:NitfSegment.read_from_file", "pynitf/nitf_text.py:NitfTextStr.read_from_file", "pynitf/nitf_image.py:NitfImageReadNumpy.read_from_file", "pynitf/nitf_segment_data_handle.py:NitfDataPlaceHolder.read_from_file"]}
{"id": "C72", "title": "Segments that are in two files", "statement": "A segment keeps a link to the file it was appended to last, and writing uses that link. (1) A file whose segments are all linked to it is written as if there were no other file, and the header of any other file is untouched; (2) the sizes of a segment linked to another file, or to none, are not put into the header of the file being written, which keeps what it had for them; (3) they are put into the header object of the other file, in the place of its segment with the same number, and (5) nothing else there changes; (4) if the other file has no segment with that number, writing raises; (6) every file is written so that it can be read again, whichever other files its segments were appended to.", "quantifier": "all files, all choices of segments that are linked elsewhere, all states of the other file's header (written before or not), all registered classes in both files", "why_tests_cant": "The tests append each segment to one file; which byte of which file is patched depends on the layouts of both headers.", "anchors": ["pynitf/nitf_file.py:ListNitfFileReference.append", "pynitf/nitf_file.py:NitfFile.write", "pynitf/nitf_segment.py:NitfSegment.write_to_file", "pynitf/nitf_segment.py:NitfSegment._update_file_header", "pynitf/nitf_field.py:FieldStruct.update_field"]}
{"id": "C73", "title": "Image data is copied from the file it was read from", "statement": "An image that was read keeps no data to write: writing opens the file it was read from by name and copies the part the image was in, in pieces of 1 MiB. (1) If the files read still hold what was read and none of them is the one written, a file is written as if it held its data; (2) otherwise the data of an image is what is now in that part of the file named, as far as there is any, and everything else is as if the image had been given that data; (3) of an image in the file being written, no byte is copied but those written to the same place since it was opened; (4) if all images are in the file being written and neither the file header nor an image subheader has grown, no image data is written at all; (5) a file that was read can be written to where it was read from.", "quantifier": "all files, all numbers and places of images, all contents of all files on the disk, all registered classes, any amount of output still in the buffer at any time", "why_tests_cant": "The tests write to a new name; what is copied depends on the layout of both files and on what has left the buffer.", "anchors": ["pynitf/nitf_image.py:NitfImagePlaceHolder.write_to_file", "pynitf/nitf_image.py:NitfImageReadNumpy.write_to_file", "pynitf/nitf_image.py:NitfImageReadNumpy.read_from_file", "pynitf/nitf_file.py:NitfFile.write"]}
{"id": "C74", "title": "What is left when writing a file fails", "statement": "NitfFile.write can raise at any point. (1) Whatever happens, the TREs, the segments, their data and all header fields but those that writing sets are as before; only the DES segments made for TREs that do not fit may be left behind the other DES, and none is if the call works; (2) if the DES cannot be sorted out at the beginning, nothing has changed and the file has not been touched; (3) a later call that works, with the same or other registered classes, gives an object as if the failed one had not been: the segments left over are gone; (4) after a failure the object and the file on disk are as before.", "quantifier": "all files, linked or not, all registered classes, failures at any step, any number of TREs that do not fit", "why_tests_cant": "The tests hardly make a write fail, and do not look at the object afterwards.", "anchors": ["pynitf/nitf_file.py:NitfFile.write", "pynitf/nitf_tre.py:prepare_tre_write", "pynitf/nitf_segment.py:NitfSegment.write_to_file"]}
