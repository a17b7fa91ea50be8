{"id": "C01", "title": "Fixed-width sections always hold exactly their declared width", "statement": "After assigning any convertible value to a fixed-width section (header magic/extra/comment, entry name, flash names ...), the stored bytes have exactly the declared width: the converted value, cut to the width (with a BytesWarning exactly when it was too wide) or right-padded with zero bytes.", "quantifier": "for every declared width n >= 0 and every byte string produced by the section's converter", "why_tests_cant": "The set of values is infinite; tests only try a few in-range values and never the truncation boundary.", "anchors": ["tivars/data.py: Section.__set__, Section._set_raw", "tivars/var.py: TIHeader, TIEntry sections"]}
{"id": "C02", "title": "Writing through a view changes only the bytes the view covers", "statement": "Assigning through a View with a fixed slice replaces exactly the bytes of that slice, keeps the total length, and leaves every byte outside the slice unchanged; reading the view back returns the bytes written; writes to disjoint views commute.", "quantifier": "for every buffer that covers the slice, every slice start<=stop (absolute or negative from the end), every written value of the view's width", "why_tests_cant": "Needs all buffers, all slices and all values simultaneously; a test can only sample points, and aliasing bugs show up in the untested neighbour byte.", "anchors": ["tivars/data.py: View.__init__, View.__set__, View._get_raw"]}
{"id": "C03", "title": "Bit fields are independent", "statement": "Bits[a:b] reads back the value written (mod the field width), never disturbs a bit outside the field, and warns exactly when the low byte of the value does not fit the field.", "quantifier": "for every field 0<=a<=b<=8, every integer value (including negative), every current byte", "why_tests_cant": "Sign bit, graph bit and subtype share one byte; the tests never check the other bits after a write for all 256 bytes and all values.", "anchors": ["tivars/data.py: Bits.__class_getitem__, BitSlice.get, BitSlice.set"]}
{"id": "C04", "title": "Little-endian integer fields are exact or refuse", "statement": "An integer field returns the integer written when 0 <= v < 256^width and raises OverflowError otherwise (never wraps, never writes).", "quantifier": "for every integer v and every width", "why_tests_cant": "Unbounded domain; tests use a handful of in-range integers.", "anchors": ["tivars/data.py: Integer.get, Integer.set"]}
{"id": "C05", "title": "Text sections round-trip latin-1 text", "statement": "A text section returns the text written whenever every character is latin-1, the text fits, and it does not end in NUL; a non-latin-1 character is rejected; an over-long comment is cut to a prefix. (The condition on NUL is necessary: trailing NULs are lost.)", "quantifier": "for every sequence of code points", "why_tests_cant": "Quantifies over all strings, including ones containing interior NULs and non-latin-1 code points.", "anchors": ["tivars/data.py: String.get, String.set", "tivars/var.py: TIHeader.comment"]}
{"id": "C06", "title": "Flag fields: set/get/|=/in agree", "statement": "A one-byte flag field read from a byte and written back gives the same byte; updating with a bitset changes exactly the named bits; 'x in flags' holds exactly when every named bit has the named value; multi-byte flag data keep their width (false: leading zero bytes are lost).", "quantifier": "for every byte, every bitset on bits 0..7, every byte string (width claim)", "why_tests_cant": "All 256 bytes x all partial bitsets; the width claim quantifies over byte strings of any length.", "anchors": ["tivars/flags.py: Flags.__init__, __int__, __str__, __contains__, get, set"]}
{"id": "C07", "title": "BCD fields are exact decimal", "statement": "A BCD field of n bytes returns the integer written for 0 <= v < 100^n, refuses anything else, and rewriting a field with the value read from it is the identity exactly on bytes whose nibbles are all decimal digits.", "quantifier": "for every width n, every integer v, every byte string", "why_tests_cant": "100^7 mantissas; tests check about ten.", "anchors": ["tivars/numeric.py: BCD.get, BCD.set", "tivars/types/real.py: TIReal.mantissa"]}
{"id": "C08", "title": "Nibble-packed components of a radical do not overlap", "statement": "Writing one of sign type / denominator / left or right scalar / left or right radicand of a TIRealRadical changes none of the others, for every value of at most three digits. (False for wider values the setter also accepts: a denominator of 1000 overwrites the sign nibble.)", "quantifier": "for every 9-byte payload and every integer value accepted by the setter", "why_tests_cant": "Five 12-bit fields interleave in seven bytes; tests set all fields together with small values. (Claim is false from 1000 upwards: the denominator setter silently overwrites the sign nibble.)", "anchors": ["tivars/numeric.py: LeftNibbleBCD.set, RightNibbleBCD.set", "tivars/types/real.py: TIRealRadical views"]}
{"id": "C09", "title": "Headers are 53 bytes and lossless", "statement": "Loading any byte string into a TIHeader and serialising gives the first 53 bytes of the input right-padded with zeros; serialising a constructed header and loading it back restores all fields; loading from a stream object is equivalent to loading its bytes (false: it raises).", "quantifier": "for every byte string of any length; every header", "why_tests_cant": "All byte strings, including short and over-long ones.", "anchors": ["tivars/var.py: TIHeader.load_bytes, TIHeader.bytes, TIHeader.__len__"]}
{"id": "C10", "title": "A header built for a model targets that model", "statement": "For every model constant, the header constructed for it lists that model among its targets; targets() is non-empty or raises; a recognised product ID narrows, an unrecognised one is ignored.", "quantifier": "for every model, every product ID byte, every magic string", "why_tests_cant": "Tests check two headers; the statement ranges over all models and all 256 product IDs and all magics.", "anchors": ["tivars/var.py: TIHeader.__init__, TIHeader.targets", "tivars/models/model.py: TIModel.MODELS"]}
{"id": "C11", "title": "Entry serialise-then-parse is the identity", "statement": "Parsing the bytes of an entry restores meta length, type byte, name bytes, version, archive byte and data. (Exact condition: it fails precisely for flash entries whose version byte and archive byte spell the data length, e.g. every default empty entry.)", "quantifier": "for every entry state with data shorter than 65536 bytes and meta length 11 or 13", "why_tests_cant": "All names, versions, archive bytes and data; the failing set is a thin slice no fixture hits.", "anchors": ["tivars/var.py: TIEntry.load_bytes, TIEntry.Raw.bytes"]}
{"id": "C12", "title": "Entry parse-then-serialise is the identity on well-formed bytes", "statement": "For every byte string that is a well-formed entry (meta 11 or 13, both length words equal to the data length), loading it emits no structural warning and serialising returns exactly the same bytes. (For complex numbers the type byte must agree with the tag of the imaginary part; otherwise the claim is false, the type byte is rewritten.)", "quantifier": "for every well-formed entry byte string outside the ambiguous set of C11", "why_tests_cant": "Infinite family of byte strings of every length.", "anchors": ["tivars/var.py: TIEntry.load_bytes, TIEntry.Raw.bytes"]}
{"id": "C13", "title": "Reported entry length equals serialised length", "statement": "len(entry) equals the number of bytes of entry.bytes() and next_entry_length reports the same number from the stream without moving it. (False when fewer than four bytes are left: the stream is moved back.)", "quantifier": "for every entry with meta length 11 or 13 and data below 65536 bytes, followed by any stream suffix", "why_tests_cant": "All data lengths and suffixes.", "anchors": ["tivars/var.py: TIEntry.__len__, TIEntry.next_entry_length"]}
{"id": "C14", "title": "Var files with any number of entries round-trip", "statement": "Loading the bytes of a TIVar restores its header and the list of its entries, in order, without checksum or length warnings.", "quantifier": "for every header and every list of (unambiguous) entries whose total length fits 16 bits", "why_tests_cant": "Lists of any length of entries of any content.", "anchors": ["tivars/var.py: TIVar.load_bytes, TIVar.bytes"]}
{"id": "C15", "title": "Checksum detects corruption", "statement": "The stored checksum is the sum of all entry bytes mod 65536; loading a file emits the checksum warning exactly when the trailing word differs from the sum of the loaded entries; changing any single data byte of any entry is always reported as long as the entry keeps its shape. (False for the tag bytes of complex numbers: the type byte is rewritten along with the data and may compensate the change.)", "quantifier": "for every file and every single-byte substitution in a data section", "why_tests_cant": "All files x all positions x all replacement values.", "anchors": ["tivars/var.py: TIVar.checksum, TIVar.load_bytes"]}
{"id": "C16", "title": "Reported var length equals file size", "statement": "len(var) is the number of bytes of var.bytes(). (False: it is always two short; the checksum is not counted.)", "quantifier": "for every var", "why_tests_cant": "Tests compare only bytes().", "anchors": ["tivars/var.py: TIVar.__len__, TIVar.bytes"]}
{"id": "C17", "title": "add_entry keeps the entry it is given", "statement": "After add_entry(e) the var's entries are the old ones followed by e. (False when e has no data: e is replaced by a fresh unnamed entry.)", "quantifier": "for every var and every entry", "why_tests_cant": "Needs entries with empty data, which no test adds.", "anchors": ["tivars/var.py: TIVar.add_entry, TIEntry.__bool__, TIHeader.__or__"]}
{"id": "C18", "title": "Loading arbitrary bytes terminates", "statement": "Loading any byte string as a var stops, and yields at most declared_length/4 + 1 entries, even when the file is truncated and the stream is rewound by the length peek.", "quantifier": "for every byte string", "why_tests_cant": "Termination over all inputs (adversarial truncations included) is not testable.", "anchors": ["tivars/var.py: TIVar.load_bytes, TIEntry.next_entry_length"]}
{"id": "C19", "title": "File extension lookup picks the newest supported key and never fails", "statement": "For a var with one entry and target model m, extension is the entry type's extension for the newest listed model not newer than m, and the default (with warning) if there is none. (False: any model that is not itself a key but is newer than one raises KeyError.)", "quantifier": "for every entry type and every target model", "why_tests_cant": "24 models x all types; tests target one model.", "anchors": ["tivars/var.py: TIVar.extension", "tivars/types/*.py: extensions"]}
{"id": "C20", "title": "Loading a var that has a target model never fails on the model check", "statement": "For every target model and every header with recognised magic, the compatibility check after loading emits at most a warning. (False: raises TypeError when exactly one model matches the header.)", "quantifier": "for every model and every header", "why_tests_cant": "Needs a product ID owned by one model; no fixture has one together with a target model.", "anchors": ["tivars/var.py: TIVar.load_bytes (line 1229), TIHeader.targets"]}
{"id": "C21", "title": "Flashless entries can be constructed", "statement": "Constructing any entry with for_flash=False yields an 11-byte-meta entry. (False: the constructor always raises AttributeError, and so do list(), matrix() and ungroup() on flashless containers.)", "quantifier": "for every entry class and every name/version/archived/data argument", "why_tests_cant": "No test passes for_flash=False.", "anchors": ["tivars/var.py: TIEntry.__init__, TIEntry.meta_length"]}
{"id": "C22", "title": "Archiving toggles one byte", "statement": "archive()/unarchive() on a flash entry change only the archive byte, archived reads back accordingly, and both raise TypeError exactly on flashless entries.", "quantifier": "for every entry state", "why_tests_cant": "Frame condition over all states.", "anchors": ["tivars/var.py: TIEntry.archive, TIEntry.unarchive, TIEntry.flash_bytes, Boolean"]}
{"id": "C23", "title": "Sized entries keep their length word in sync", "statement": "After any sequence of data assignments the two leading bytes of a sized entry equal the length of the remaining data. (False for TIImage, whose magic byte is not counted, and for GDB equation assignment.)", "quantifier": "for every sequence of data assignments of any lengths below 65536", "why_tests_cant": "Invariant over all operation sequences.", "anchors": ["tivars/data.py: SizedData.set", "tivars/var.py: SizedEntry", "tivars/types/picture.py: TIImage", "tivars/types/gdb.py: IndexedEquationConverter.set"]}
{"id": "C24", "title": "Assigning calc_data keeps the entry editable", "statement": "After entry.calc_data = x every view of the entry can still be assigned. (False: the buffer becomes an immutable bytes object and every later view assignment raises TypeError; flash headers are always in this state.)", "quantifier": "for every entry, every x, every view", "why_tests_cant": "Needs the sequence assign-then-edit, not covered by tests.", "anchors": ["tivars/data.py: Section.__set__, View.__set__, Bytes.set", "tivars/flash.py: TIFlashHeader"]}
{"id": "C25", "title": "TIReal.load_string stores the decimal value exactly", "statement": "Loading a decimal literal with at most 14 significant digits and in-range exponent stores a number whose decimal() is exactly the literal's value, with sign and normalised mantissa. (Proved for literals without superfluous leading zeros; false with them: '012' stores 1.2.)", "quantifier": "for every decimal literal [sign]digits[.digits][e[sign]digits] without superfluous leading zeros", "why_tests_cant": "Infinite set of literals. (False with leading zeros: '007' loads as 0.07.)", "anchors": ["tivars/types/real.py: TIReal.load_string, TIReal.decimal"]}
{"id": "C26", "title": "Long literals are truncated toward zero to 14 significant digits", "statement": "For literals with more digits the stored value is the exact value truncated toward zero at the 14th significant digit (relative error below 10^-13), never rounded up.", "quantifier": "for every decimal literal with any number of digits", "why_tests_cant": "Error bound over all literals.", "anchors": ["tivars/types/real.py: TIReal.load_string"]}
{"id": "C27", "title": "TIReal string() round-trips", "statement": "Loading the string() of a TIReal gives back the same number. (Holds exactly when the number has no digits beyond the 14th decimal place; false for small numbers such as 1e-20, which print as 0.)", "quantifier": "for every valid TIReal payload", "why_tests_cant": "10^14 mantissas x 256 exponents.", "anchors": ["tivars/types/real.py: RealEntry.__format__, TIReal.load_string"]}
{"id": "C28", "title": "Rejected numbers leave the entry unchanged", "statement": "If load_string raises, the entry keeps its previous value. (False: on exponent overflow the mantissa has already been overwritten.)", "quantifier": "for every previous state and every rejected literal", "why_tests_cant": "Needs inspection of state after an exception for all inputs.", "anchors": ["tivars/types/real.py: TIReal.load_string (line 312)"]}
{"id": "C29", "title": "Negation flips only the sign", "statement": "-x differs from x in the sign bit only, and -(-x) == x.", "quantifier": "for every real payload, name, version and archive state that survives copying", "why_tests_cant": "Frame condition over all payloads.", "anchors": ["tivars/types/real.py: RealEntry.__neg__", "tivars/var.py: TIEntry.__copy__"]}
{"id": "C30", "title": "Fractions survive the 14-digit representation", "statement": "TIRealFraction stores p/q as a 14-digit decimal and fraction() recovers exactly p/q. (Proved for reduced fractions with 1 <= q <= 10000 and |p/q| < 100000; false in general beyond that range.)", "quantifier": "for every fraction with denominator <= 10000 and magnitude below 10^5 (and at least 10^-4 or zero)", "why_tests_cant": "About 10^12 fractions; correctness needs the best-approximation property of limit_denominator.", "anchors": ["tivars/types/real.py: TIRealFraction.load_fraction, TIRealFraction.fraction"]}
{"id": "C31", "title": "Radical loading preserves the value and normalises", "statement": "Loading (a*sqrt b + c*sqrt d)/e stores components with the same formal value, larger radicand on the left, positive denominator, and signs encoded by the sign type.", "quantifier": "for every integers a,b,c,d,e with components in 0..999 accepted by the loader", "why_tests_cant": "10^15 component tuples with sign combinations.", "anchors": ["tivars/types/real.py: TIRealRadical.load_string"]}
{"id": "C32", "title": "Out-of-range radical components are rejected", "statement": "A radical component above 999 is refused. (False: left scalars, left radicands and denominators of 1000..9999 are stored with their thousands added to the other half of the byte unless the sum passes 255, which raises ValueError; a denominator of 1000 flips the sign. Right components outside 0..999 and left ones outside 0..9999 raise OverflowError.)", "quantifier": "for every component value above 999", "why_tests_cant": "Tests use small components.", "anchors": ["tivars/numeric.py: LeftNibbleBCD.set", "tivars/types/real.py: TIRealRadical.load_string"]}
{"id": "C33", "title": "Complex parts are independent and typed by the imaginary part", "statement": "Assigning real or imag of a complex entry changes only its own nine bytes; reading back gives the assigned magnitude and sign; the entry's type becomes the one of the imaginary part.", "quantifier": "for every 18-byte payload and every pair of real values of any subtype", "why_tests_cant": "All payloads and subtype combinations.", "anchors": ["tivars/types/complex.py: RealPart, ImaginaryPart, ComplexEntry.coerce"]}
{"id": "C34", "title": "Assigning a part does not modify the assigned number", "statement": "c.real = r (or c.imag = r) leaves r unchanged. (False: r's subtype is overwritten with the complex subtype.)", "quantifier": "for every real entry r", "why_tests_cant": "Tests discard the operand after assignment.", "anchors": ["tivars/types/complex.py: RealPart.set, ImaginaryPart.set"]}
{"id": "C35", "title": "Complex version depends on the kinds of the parts, not their signs", "statement": "Two complex entries with the same part kinds have the same version and minimum OS. (False: any negative or graph-flagged part yields version 0x10 and get_min_os then raises TypeError.)", "quantifier": "for every complex payload", "why_tests_cant": "Needs negative components together with version inspection.", "anchors": ["tivars/types/complex.py: ComplexEntry.get_version, get_min_os"]}
{"id": "C36", "title": "Lists round-trip their elements", "statement": "list() after load_list(xs) returns elements with exactly the data of xs, in order, and length is len(xs). (Proved for lists stored with flash bytes and fewer than 65536 elements; false for every non-empty flashless list, whose list() raises AttributeError, and for an element whose kind tag was overwritten by an earlier use as part of a complex number.)", "quantifier": "for every sequence of real (9-byte) or complex (18-byte) elements", "why_tests_cant": "Sequences of any length.", "anchors": ["tivars/types/list.py: TIList.load_list, TIList.list"]}
{"id": "C37", "title": "Matrices round-trip in row-major order", "statement": "matrix() after load_matrix(m) returns m; width/height/size agree; uneven rows are rejected. (Proved for one to 255 columns and rows; false for a matrix without columns, whose rows are lost; the size warning uses the previous height and may be spurious.)", "quantifier": "for every rectangular matrix with 1..255 columns and up to 255 rows; every ragged matrix (rejection)", "why_tests_cant": "All shapes and contents.", "anchors": ["tivars/types/matrix.py: TIMatrix.load_matrix, TIMatrix.matrix"]}
{"id": "C38", "title": "Lists and matrices of exact numbers carry a newer version", "statement": "A list or matrix containing an exact element gets version 0x0B or 0x10. (False: get_version is constantly 0x00.)", "quantifier": "for every list or matrix payload", "why_tests_cant": "Universal statement about all payloads.", "anchors": ["tivars/types/list.py: TIList.get_version", "tivars/types/matrix.py: TIMatrix.get_version"]}
{"id": "C39", "title": "Any saved list can be loaded", "statement": "Loading the bytes of any list entry succeeds. (False: every empty list raises IndexError.)", "quantifier": "for every list entry", "why_tests_cant": "Tests never reload an empty list.", "anchors": ["tivars/types/list.py: TIList.coerce"]}
{"id": "C40", "title": "Decoding is lossless up to a dropped tail", "statement": "The concatenated bytes of the decoded tokens are a prefix of the input; what is missing is either only NUL bytes or one dangling byte that starts no one-byte token.", "quantifier": "for every byte string and every token sheet", "why_tests_cant": "All byte strings and all sheets.", "anchors": ["tivars/tokenizer/decoder.py: decode"]}
{"id": "C41", "title": "Decoding inverts token concatenation", "statement": "Decoding the concatenated bytes of any token sequence returns that sequence, and since is the maximum over the sequence. (Proved when no token's bytes are a prefix of another's; false without that condition.)", "quantifier": "for every sheet whose byte keys are 1-2 bytes, prefix-free and do not start with NUL, and every token sequence over it", "why_tests_cant": "All token sequences.", "anchors": ["tivars/tokenizer/decoder.py: decode"]}
{"id": "C42", "title": "Trie matching is sound, complete and ordered", "statement": "match(s) returns exactly the tokens having a name that is a prefix of s, each with the right remainder, longest first.", "quantifier": "for every set of inserted names and every string", "why_tests_cant": "All tries and strings.", "anchors": ["tivars/trie.py: TITokenTrie.insert, TITokenTrie.match"]}
{"id": "C43", "title": "Encoding consumes exactly the text", "statement": "encode(s) succeeds only if s splits into token names and byte literals, and the output is the concatenation of the bytes of exactly those tokens; encoding terminates. (Termination is proved when no token has an empty name, and false otherwise; a malformed byte literal may contribute no bytes at all.)", "quantifier": "for every string, every mode, every trie without an empty name", "why_tests_cant": "All strings, all sheets; termination.", "anchors": ["tivars/tokenizer/encoder.py: encode", "tivars/tokenizer/state.py: EncoderState.munch"]}
{"id": "C44", "title": "The encoder's context stack is never exhausted", "statement": "encode never fails with 'stack consumed': the base mode always stays at the bottom of the stack and the stack never exceeds two states.", "quantifier": "for every string, mode and trie", "why_tests_cant": "Invariant over all runs.", "anchors": ["tivars/tokenizer/encoder.py: encode", "tivars/tokenizer/state.py"]}
{"id": "C45", "title": "Maximal and minimal munching", "statement": "In max mode every step takes the longest matching name; in string mode the shortest, except that a leading punctuation mark is not taken alone when a longer name starts there.", "quantifier": "for every string and trie", "why_tests_cant": "All strings and tries.", "anchors": ["tivars/tokenizer/state.py: EncoderState.munch"]}
{"id": "C46", "title": "Name contexts end after 8 (programs) or 5 (lists) tokens", "statement": "In smart mode at most 8 (5) tokens after prgm (the list marker) are munched minimally. (False: 9 and 6.)", "quantifier": "for every string", "why_tests_cant": "Off-by-one only visible on names of maximal length followed by a multi-character token.", "anchors": ["tivars/tokenizer/state.py: EncoderState.munch, ListName, ProgramName", "tivars/tokenizer/encoder.py: encode docstring"]}
{"id": "C47", "title": "decode after encode returns the munched tokens", "statement": "Decoding encoded text gives back the tokens chosen by the encoder, byte for byte. (Proved for text without a backslash and a prefix-free sheet; false with byte literals, two of which may decode as one token.)", "quantifier": "for every string that encodes without byte literals, every prefix-free sheet", "why_tests_cant": "All strings and sheets.", "anchors": ["tivars/tokenizer/encoder.py: encode", "tivars/tokenizer/decoder.py: decode"]}
{"id": "C48", "title": "lines() partitions the program", "statement": "Joining lines() with the separators gives the token sequence back. (False: store arrows and quotes are dropped.) The number of lines is one more than the number of separators outside strings.", "quantifier": "for every token sequence", "why_tests_cant": "All token sequences.", "anchors": ["tivars/types/tokenized.py: TokenizedEntry.lines"]}
{"id": "C49", "title": "Token version bytes are monotone and recognised", "statement": "The version byte grows with the OS requirement, gains exactly 0x20 with clock tokens, and is one of the class's recognised versions. (False for 0x07 and 0x27, which are computed but not recognised, and clock tokens are searched byte-wise, so a pair of bytes across two tokens also counts.)", "quantifier": "for every token data and every OS ordering", "why_tests_cant": "All token data; the recognised-list claim is false for one branch.", "anchors": ["tivars/types/tokenized.py: TokenizedEntry.get_version, versions"]}
{"id": "C50", "title": "Version follows the data", "statement": "After entry.data = d the version byte is the version of d. (False for empty d: the version of the previous data is kept.)", "quantifier": "for every previous state and every d", "why_tests_cant": "All pairs of old and new data.", "anchors": ["tivars/data.py: Data.set", "tivars/types/tokenized.py: TokenizedEntry.get_version"]}
{"id": "C51", "title": "Protecting a program only changes its type", "statement": "protect()/unprotect() change only type and class, are inverse on programs, and keep data, name, version and archive state. (False for objects of the assembly class, on which both raise, and not inverse when the data is an assembly program.)", "quantifier": "for every program entry", "why_tests_cant": "Frame condition over all entries.", "anchors": ["tivars/types/tokenized.py: TIProgram.protect, unprotect, coerce"]}
{"id": "C52", "title": "Grouping then ungrouping returns the entries", "statement": "ungroup(group(es)) returns entries with the same type, name, version, archive flag and data, in order. Each member is written as its type, version and archive flag and its unpadded name (with a length byte for programs, appvars, groups and lists); loading entries into a group replaces what it held by what a new group of them holds.", "quantifier": "for every list of reals, strings, equations, programs, appvars, settings with names that fit the group format", "why_tests_cant": "Lists of any length and content.", "anchors": ["tivars/types/group.py: TIGroup.group, TIGroup.ungroup", "tivars/types/group.py: TIGroup.load_from_entries"]}
{"id": "C53", "title": "Every entry kind can be grouped", "statement": "group/ungroup works for lists, matrices, complex numbers and long-named settings. (False for each of them.)", "quantifier": "for every entry kind", "why_tests_cant": "Tests group only programs, reals and settings.", "anchors": ["tivars/types/group.py: TIGroup.group, TIGroup.ungroup", "tivars/types/matrix.py: TIMatrix.load_data_section", "tivars/types/list.py: TIList.coerce", "tivars/types/complex.py: ComplexEntry.coerce"]}
{"id": "C54", "title": "Monochrome pictures round-trip pixel for pixel", "statement": "load_array then array returns the same 0/255 pixels and array then load_array the same bytes. (Proved for 63x96 arrays; arrays of another size are not refused: an empty one is accepted and the picture is then unreadable.)", "quantifier": "for every picture of the device size and every pixel assignment; every 756-byte payload", "why_tests_cant": "2^6048 pictures.", "anchors": ["tivars/types/picture.py: L1, TIMonoPicture.load_array, array"]}
{"id": "C55", "title": "Palette pictures round-trip colours", "statement": "Writing colours of the palette and reading them back returns the same colours; arbitrary colours become a palette colour of minimal distance; the bytes are preserved except for the duplicate white index. (Proved for 165x266 arrays; false for rows of odd length, which lose their last pixel silently.)", "quantifier": "for every pair of RGB colours; every byte", "why_tests_cant": "2^48 pairs of colours.", "anchors": ["tivars/types/picture.py: RGBPalette.get, set, nearest"]}
{"id": "C56", "title": "RGB565 images are stable", "statement": "Reading a pixel and writing it back restores its two bytes; writing and reading changes a channel by less than one quantisation step.", "quantifier": "for every two-byte pixel; every RGB triple in range", "why_tests_cant": "65536 pixels x 2^24 colours.", "anchors": ["tivars/types/picture.py: RGB565.get, set"]}
{"id": "C57", "title": "Colour images keep their length word", "statement": "After load_array a TIImage is a valid entry whose length word matches its data. (False: the length word is one short and the image no longer loads without a warning, which the PIL plugin turns into an error.)", "quantifier": "for every image", "why_tests_cant": "Tests never reload a TIImage written by the library.", "anchors": ["tivars/types/picture.py: TIImage.load_array, data", "tivars/data.py: SizedData.set", "tivars/PIL/common.py"]}
{"id": "C58", "title": "Picture names round-trip", "statement": "Pic/Image names read back as written. (False for Image0, which is rejected, while the byte for it reads as Image10.)", "quantifier": "for every digit", "why_tests_cant": "Tests use Image1.", "anchors": ["tivars/types/picture.py: ImageName, PictureName"]}
{"id": "C59", "title": "GDB equation slots are independent", "statement": "Assigning equation i of a GDB leaves every other equation, the window parameters and the colour tail unchanged and reading i back gives the assigned data. (False for a newly made equation, whose three bytes are not a well-formed equation; style and colour of the second equation of a pair are dropped.)", "quantifier": "for every well-formed GDB of each mode, every index, every equation", "why_tests_cant": "All GDB contents and equation lengths; equations are variable-length so all later bytes move.", "anchors": ["tivars/types/gdb.py: TIGraphedEquation.__class_getitem__, TIMonoGDB.get_equations, get_color_data"]}
{"id": "C60", "title": "Colour stripping yields the monochrome GDB", "statement": "mono() removes exactly the colour tail and keeps equations and window parameters. (Proved for colour GDBs; the length words are stale and the result warns; false for a monochrome GDB loaded generically, which is taken for a colour one and loses equation data.)", "quantifier": "for every well-formed colour GDB of each mode", "why_tests_cant": "All contents.", "anchors": ["tivars/types/gdb.py: mono, get_color_data"]}
{"id": "C61", "title": "Graph settings are independent fields that tile the payload", "statement": "The window/table/GDB parameters occupy disjoint nine-byte fields; setting one leaves all the others unchanged.", "quantifier": "for every payload, every pair of distinct fields, every value", "why_tests_cant": "23x22 pairs x all payloads.", "anchors": ["tivars/types/settings.py", "tivars/types/gdb.py"]}
{"id": "C62", "title": "Settings dictionaries round-trip", "statement": "load_dict(dict()) restores the settings. (False: load_dict raises ValueError on every dictionary produced by dict().)", "quantifier": "for every settings entry", "why_tests_cant": "No test loads a settings dictionary.", "anchors": ["tivars/types/settings.py: SettingsEntry.load_dict, dict"]}
{"id": "C63", "title": "Flash headers round-trip", "statement": "Loading the bytes of a flash header restores it. (Exact condition: name of exactly eight bytes and one device; false for constructed headers.)", "quantifier": "for every flash header and every data section", "why_tests_cant": "All names, device lists and data.", "anchors": ["tivars/flash.py: TIFlashHeader.load_bytes, Raw.bytes"]}
{"id": "C64", "title": "Intel-HEX blocks are well-formed", "statement": "Each block written by the library parses back to the same type, address and data and its bytes including checksum sum to zero mod 256. (Proved for payloads up to 255 bytes; false for a block constructed without data, which cannot be written: AttributeError.)", "quantifier": "for every address, type and hex payload of at most 255 bytes", "why_tests_cant": "All payloads.", "anchors": ["tivars/flash.py: TIFlashBlock"]}
{"id": "C65", "title": "Flash dates and revisions round-trip", "statement": "A date (d,m,y) and revision x.y read back as written when each part fits its digits.", "quantifier": "for every d,m < 100, y < 10000, x,y < 100", "why_tests_cant": "10^8 dates.", "anchors": ["tivars/flash.py: BCDDate, BCDRevision"]}
{"id": "C66", "title": "Peeking at the next flash header does not move the stream", "statement": "next_header_length restores the stream position and returns the length of the next header including its optional checksum. (False when the stream ends inside the header: the position is moved.)", "quantifier": "for every stream content and position", "why_tests_cant": "All streams.", "anchors": ["tivars/flash.py: TIFlashHeader.next_header_length"]}
{"id": "C67", "title": "Loader dispatch", "statement": "load(x) runs the first registered loader that accepts x's type and is implemented, and raises TypeError when none is.", "quantifier": "for every loader table and every input type", "why_tests_cant": "All tables, including subclass overrides.", "anchors": ["tivars/data.py: Dock.load, Loader.__set_name__"]}
{"id": "C68", "title": "Feature sets grow along the model families", "statement": "has(feature) agrees with the feature table for every model, and each model family extends its predecessor's features (the 82AEP drops Apps only).", "quantifier": "for every model and every feature", "why_tests_cant": "Finite but untested: 24 x 8 combinations.", "anchors": ["tivars/models/model.py: TIFeature, TIModel.has"]}
{"id": "C69", "title": "Negation negates exact numbers", "statement": "-x of a real entry has the opposite value, whatever kind of real x is; in particular negating a radical negates it. (False for every radical: the value does not change; true of decimals, C29.)", "quantifier": "for every stored real or radical payload", "why_tests_cant": "All payloads of every subtype.", "anchors": ["tivars/types/real.py: RealEntry.__neg__, TIRealRadical.sign_type"]}
{"id": "C70", "title": "Multiples of pi load their coefficient", "statement": "Loading the text of a coefficient followed by the pi sign stores exactly what loading the coefficient alone would; the bare constant is one times pi. (The bare constant loads as zero, so the last part is false.)", "quantifier": "for every decimal literal and every prior payload", "why_tests_cant": "All literals.", "anchors": ["tivars/types/real.py: TIRealPi.load_string"]}
{"id": "C71", "title": "fraction() is a closest fraction", "statement": "The fraction reported for a stored real is in lowest terms, has a denominator of at most 10000, and no other fraction with such a denominator is nearer.", "quantifier": "for every rational value and denominator bound", "why_tests_cant": "All rationals.", "anchors": ["tivars/types/real.py: TIRealFraction.fraction"]}
{"id": "C72", "title": "Decimals load exactly", "statement": "load_decimal stores any Decimal whose coefficient has at most 14 significant digits exactly, or raises OverflowError when its exponent does not fit; decimal() then returns the same number.", "quantifier": "for every finite Decimal with at most 14 significant digits", "why_tests_cant": "10^14 coefficients, unbounded exponents.", "anchors": ["tivars/types/real.py: TIReal.load_decimal, TIReal.decimal"]}
{"id": "C73", "title": "Every radical expression in range loads", "statement": "Text of the documented form (a sqrt b + c sqrt d)/e with a nonzero denominator and components below 1000 is accepted. (False: also refused are exactly those with a vanishing leading term, sums of two integers without a root, and signed denominators under a single root.)", "quantifier": "for every radical expression in range", "why_tests_cant": "All expressions.", "anchors": ["tivars/types/real.py: TIRealRadical.load_string"]}
{"id": "C74", "title": "Multiples of pi survive their own text", "statement": "The text printed for a multiple of pi reads back to the same payload exactly when the coefficient is not zero and has at most 14 decimal places.", "quantifier": "for every stored coefficient", "why_tests_cant": "All payloads.", "anchors": ["tivars/types/real.py: TIRealPi.__format__, TIRealPi.load_string"]}
{"id": "C75", "title": "Text of a complex number loads both parts", "statement": "Loading 'a+bi' (with any of the accepted unit spellings) stores a and b exactly as loading them as reals would; in particular 'a-i' has imaginary part minus one. (The last part is false: 'a-i' loads minus zero.)", "quantifier": "for every pair of decimal literals and every prior complex payload", "why_tests_cant": "All pairs of literals.", "anchors": ["tivars/types/complex.py: ComplexEntry.load_string"]}
{"id": "C76", "title": "Complex text is never silently misread", "statement": "A text that is not of the form a+bi, such as one with three summands, is rejected rather than loaded as something else, and signed exponents are read as exponents. (False: every summand after the second is ignored, and a signed exponent is taken for the imaginary part.)", "quantifier": "for every text", "why_tests_cant": "All texts.", "anchors": ["tivars/types/complex.py: ComplexEntry.load_string"]}
{"id": "C77", "title": "Complex numbers survive their own text", "statement": "The text printed for a complex number reads back to the same complex number. (Exact condition: neither part has digits beyond the fourteenth decimal place, and the number is not a nonzero real part minus i; false otherwise, e.g. for 3-i.)", "quantifier": "for every pair of stored reals", "why_tests_cant": "All payloads.", "anchors": ["tivars/types/complex.py: ComplexEntry.__format__, ComplexEntry.load_string"]}
{"id": "C78", "title": "Enumerated fields warn exactly for unknown values", "statement": "Writing a byte value to an enumerated field stores that value and reads back; it warns exactly when the value is not a member; values outside a byte are refused.", "quantifier": "for every enumeration and every integer", "why_tests_cant": "All enumerations.", "anchors": ["tivars/flags.py: Enum.get, Enum.set"]}
{"id": "C79", "title": "Reading a field off missing data raises ValueError", "statement": "Reading a bit field or enumerated field whose bytes are missing raises ValueError; no field read raises IndexError, and other results are unaffected.", "quantifier": "for every field and payload", "why_tests_cant": "All payload lengths.", "anchors": ["tivars/data.py: Section.__get__"]}
{"id": "C80", "title": "Tokens loaded into an entry are read back", "statement": "load_tokens(ts) followed by tokens() returns ts; load_string(s) followed by tokens() returns the tokens the encoder chose.", "quantifier": "for every tokenized entry, every prefix-free sheet, every token list over it, every text without byte literals", "why_tests_cant": "Unbounded token lists and all sheets.", "anchors": ["tivars/types/tokenized.py: TokenizedEntry.load_tokens, TokenizedEntry.tokens, TokenizedEntry.load_string"]}
{"id": "C81", "title": "Names are read back as their tokens", "statement": "A name whose tokens take at most eight bytes is stored NUL-padded (losing trailing NULs of its last token to the padding) and read back as the display forms of exactly those tokens.", "quantifier": "for every entry class, every prefix-free sheet, every text without byte literals", "why_tests_cant": "All sheets, including tokens that end in NUL.", "anchors": ["tivars/tokenizer/__init__.py: Name.set, TokenizedString.get"]}
{"id": "C82", "title": "Constructing a colour GDB keeps its colours", "statement": "Constructing a colour GDB class from the bytes of such a GDB keeps its axes and grid colours. (False: the constructor overwrites the axes colour with black and the grid colour with medium grey; nothing else changes.)", "quantifier": "for every colour GDB", "why_tests_cant": "Needs GDBs with other axes and grid colours; the tests construct without bytes.", "anchors": ["tivars/types/gdb.py: TIGDB.__init__"]}
{"id": "C83", "title": "GDB dictionaries show each parameter under its own name", "statement": "Every key under settings in dict() carries the parameter of that name. (False for sequence GDBs: vnMin carries the value of vnMinp1; true of every other key.)", "quantifier": "for every GDB mode, every key", "why_tests_cant": "Only visible when vnMin and vnMinp1 differ.", "anchors": ["tivars/types/gdb.py: dict of TIMonoFuncGDB, TIMonoParamGDB, TIMonoPolarGDB, TIMonoSeqGDB"]}
{"id": "C84", "title": "The GDB length word follows the equations", "statement": "After assigning an equation the length word still counts the payload. (False whenever the size of the equation changes: the word is never rewritten.)", "quantifier": "for every well-formed GDB, every index, every equation of another size", "why_tests_cant": "All sizes; no test looks at the length word after an assignment.", "anchors": ["tivars/types/gdb.py: TIGraphedEquation.__class_getitem__ (IndexedEquationConverter.set)"]}
{"id": "C85", "title": "Intel flash data splits into its records", "statement": "With binary flag 1 the data of a header made of records joined by CR LF reads as exactly those blocks, without warnings, and the blocks write the same data; with another flag the data is the raw bytes. (Data whose last line is also terminated cannot be read: ValueError.)", "quantifier": "for every non-empty list of records with types 0, 1, 2 and payloads of at most 255 bytes", "why_tests_cant": "Unbounded lists of unbounded payloads.", "anchors": ["tivars/flash.py: FlashData.get, FlashData.set"]}
{"id": "C86", "title": "Flash file extensions fall back to earlier models", "statement": "A model not in the extension table uses the extension of the newest earlier model in the table. (False: only the models in the table itself are found; every other model gets the default extension and a warning.)", "quantifier": "for every flash class, every model, every chronology of models", "why_tests_cant": "All pairs of classes and models; the tests only use the default model.", "anchors": ["tivars/flash.py: TIFlashHeader.extension"]}
{"id": "C87", "title": "The k-th header of a flash file is found", "statement": "load_from_file with offset k reads exactly the k-th header of a file of well-formed headers, with or without checksums; open reads the first and warns if and only if there are more.", "quantifier": "for every list of well-formed headers, every k", "why_tests_cant": "Unbounded files; headers with and without checksum mixed.", "anchors": ["tivars/flash.py: TIFlashHeader.load_from_file, TIFlashHeader.open, TIFlashHeader.next_header_length"]}
{"id": "C88", "title": "The data of a flash header can be assigned", "statement": "Assigning header.data stores the data. (False: it raises for every header and every value, because the slot is an immutable bytes object.)", "quantifier": "for every header, every value", "why_tests_cant": "No test assigns it; a test would show one case.", "anchors": ["tivars/flash.py: TIFlashHeader.data, FlashData.set", "tivars/data.py: View.__set__"]}
{"id": "C89", "title": "A flash header object knows whether it has a checksum", "statement": "After loading, len and bytes count a checksum if and only if the loaded bytes had one. (True for a fresh object; false for an object reused after a header without checksum, and false when loading through the constructor.)", "quantifier": "for every well-formed header, with and without checksum, fresh and reused objects", "why_tests_cant": "Needs reuse of one object over headers of both kinds.", "anchors": ["tivars/flash.py: TIFlashHeader.load_bytes, TIFlashHeader.__init__, TIFlashHeader.__len__"]}
{"id": "C90", "title": "A complex text may have a real part in any notation", "statement": "When the kind of the entry's present real part refuses the text of the real part (TypeError or ValueError), the part is stored as the first of the real kinds (real, undefined, fraction, radical, multiple of pi, fraction of pi) that accepts it, under that kind's tag and with the same number; in particular a/b becomes a fraction, a root a radical and a multiple of pi a TIRealPi; if every kind refuses, the load raises ValueError; the imaginary part is read likewise. (True of the real part, except that a zero denominator escapes as ZeroDivisionError; false of the imaginary part, which is read in its present kind only.)", "quantifier": "for every complex entry, every text with two plain parts, every kind of both parts; Python's Fraction is an arbitrary function", "why_tests_cant": "The search depends on the order of registration and on which texts each of six readers refuses; unbounded texts.", "anchors": ["tivars/types/complex.py: ComplexEntry.load_string", "tivars/types/real.py: TIReal.load_string, TIRealFraction.load_string, TIRealRadical.load_string, TIRealPi.load_string"]}
{"id": "C91", "title": "One entry is found in a file with several", "statement": "load_from_file with offset k loads exactly the bytes of the k-th entry; open loads the first one, warns about an extension if and only if the lower-cased file name ends in none of the class's extensions, and says that there are several entries if and only if there are. (The last part is false: the bytes examined start behind the next entry's first length word, so a file with several entries is reported as such exactly when the second entry has 11 or 13 bytes of data, and otherwise as containing unexpected data. An offset behind the last entry is not noticed.)", "quantifier": "for every header of 53 bytes, every list of storable entries, every offset, every class and file name, every loader", "why_tests_cant": "Unbounded files; the defect depends on the length of the second entry.", "anchors": ["tivars/var.py: TIEntry.load_from_file, TIEntry.open, TIEntry.next_entry_length"]}
{"id": "C92", "title": "Equality is equality of contents, and copies are equal", "statement": "Two storable entries compare equal if and only if class, meta length, type, name, version, archive byte and data agree; two headers if and only if all sections agree; two vars if and only if their entries agree in order (headers and target models are ignored); a copy is equal to its original. (The last part is exact for classes that do not depend on the contents: equal if and only if version and archive bytes do not spell the data length; it holds for complex numbers of a consistent type; an assembly program cannot be copied at all; an entry still of class TIEntry gets a more special copy, which is not equal.)", "quantifier": "for every pair of storable entries, well-formed headers, vars of storable entries", "why_tests_cant": "Injectivity of a byte format over all contents.", "anchors": ["tivars/var.py: TIHeader.__eq__, TIHeader.__copy__, TIEntry.__eq__, TIEntry.__copy__, TIVar.__eq__"]}
{"id": "C93", "title": "header | entries makes the var with that header and those entries", "statement": "For a header with a known magic text and a non-empty list of entries with data, header | entries has this header, these entries in order, and a target model the header addresses, without any complaint about the model. (An empty list raises IndexError, an unknown magic text ValueError, and an entry without data is replaced by an unnamed one.)", "quantifier": "for every well-formed header, every list of entries, every choice made by set.pop", "why_tests_cant": "The target model is popped from an unordered set.", "anchors": ["tivars/var.py: TIHeader.__or__, TIEntry.export, TIVar.__init__, TIVar.add_entry"]}
{"id": "C94", "title": "A saved file gets the var's extension when none is given", "statement": "save() writes name.extension; save(f) writes f.extension if f has no extension and f otherwise; a file saved under the default name is recognised by open of the entry's class. (False of a name without extension in a directory with a dot: f is then used as it is; the exact test is whether f contains a dot anywhere.)", "quantifier": "for every name, every file name, every var, every chronology of models", "why_tests_cant": "All file names; all classes and models.", "anchors": ["tivars/var.py: TIVar.save, TIVar.filename, TIVar.extension"]}
{"id": "C95", "title": "List names are capitalised, measured and tokenised", "statement": "Setting a list name tokenises its upper case with ] written as |L; it warns about the length if and only if that text has more than five characters, or seven after |L; a name of at most eight bytes is read back as the display forms of its tokens unless the bytes start with 5D and a byte of 6 or more; IDList is stored as 5D 40; and a name read from an entry is stored again as the bytes it came from. (The last two parts are false: upper-casing removes the small letters of IDList before it is looked for, so that branch is unreachable for every input and the name is stored as IDLIST with a warning; and the byte 5D of a named list is dropped on reading and never written back, without any warning.)", "quantifier": "for every name, every token sheet that is prefix-free, every upper-casing that leaves no small ASCII letter", "why_tests_cant": "The dead branch is dead for every one of infinitely many names; tests show it for one.", "anchors": ["tivars/types/list.py: ListName.get, ListName.set, TIList.name", "tivars/tokenizer/__init__.py: Name.set"]}
{"id": "C96", "title": "Equation and string names are put into token form", "statement": "An equation name consisting of X, Y or r, a digit and perhaps T, with either brace, both or none around it, is stored with both braces; u, v and w get a bar; every other name is passed on as it is; converting twice changes nothing more. A string name spelt Str0-Str9 in any mixture of cases becomes the capitalised form; in any other string name only the case of ASCII letters changes, the first to upper and the rest to lower case.", "quantifier": "for every name, every notion of digit", "why_tests_cant": "The regular expression is characterised for all texts, including that nothing else matches.", "anchors": ["tivars/types/tokenized.py: TIEquation.name, TIString.name"]}
{"id": "C97", "title": "The OS needed by a real number follows from its kind", "statement": "get_min_os of a real number is the MathPrint OS for fractions and the initial OS otherwise, whatever its sign; supported_by holds if and only if that OS is older than the model's latest one and the kind is at most 25 or the model has exact arithmetic, which three models have. (The first part is true of non-negative numbers only: the kind is matched with the sign and graph bits still in the byte, so every negative fraction is reported to run on the initial OS, and is supported by models that refuse its absolute value.)", "quantifier": "for every first byte, every class of real numbers, every model, every order of OS versions", "why_tests_cant": "All 256 first bytes and all models; the test suite asks for no negative fraction.", "anchors": ["tivars/types/real.py: RealEntry.get_min_os, RealEntry.supported_by", "tivars/var.py: TIEntry.supported_by"]}
{"id": "C98", "title": "The OS needed by a complex number follows from its parts", "statement": "get_min_os of a complex number gives the OS of the TI-83 for two standard parts, that of 2.55 when a part is a fraction, and the OS of the TI-83PCE for exact parts; supported_by asks for exact arithmetic beyond that. (True of the first two cases only: the third calls a model object, which raises TypeError, for every complex number with a negative part, or a radical or pi part; it succeeds if and only if the larger of the two first bytes is 12 or 27, and then exact arithmetic is never asked for.)", "quantifier": "for every complex number, every model", "why_tests_cant": "Characterises success for all pairs of first bytes; no test asks a negative complex number for its OS.", "anchors": ["tivars/types/complex.py: ComplexEntry.get_min_os, ComplexEntry.supported_by"]}
{"id": "C99", "title": "A list or matrix needs what its elements need", "statement": "get_min_os of a list or matrix is the latest OS among its elements: the MathPrint OS if and only if some element is a non-negative fraction, else the initial one; a model supports it exactly if that OS is older than the latest of the model and, for exact elements, the model has exact arithmetic. (The last condition is never asked, since the version computed is always 0; and a complex list with a negative or exact element raises TypeError.)", "quantifier": "for every list of elements of any length, every model", "why_tests_cant": "Holds for lists of every length and content.", "anchors": ["tivars/types/list.py: TIList.get_min_os, TIList.supported_by", "tivars/types/matrix.py: TIMatrix.get_min_os, TIMatrix.supported_by"]}
{"id": "C100", "title": "A var is supported exactly if its header and all entries are", "statement": "TIVar.supported_by(model) holds if and only if the header addresses the model and every entry is supported by it; save() warns about exactly the unsupported entries; without a model there is an error. (The entries are only asked for their OS, not whether they are supported, so a var of radicals is supported by models without exact arithmetic; save compares by newer instead of not older, so an OS equal to the latest is unsupported but not warned about; and any entry whose OS computation raises, such as a negative complex number, makes save fail when the var has a model.)", "quantifier": "for every var with a well-formed header, any number of entries, every model", "why_tests_cant": "Any number of entries and every header; equivalence in both directions.", "anchors": ["tivars/var.py: TIVar.supported_by, TIVar.save"]}
{"id": "C101", "title": "The text of an equation in a GDB is its tokens", "statement": "The text of an equation of a graph database is the display forms of its tokens, loading it again gives the same equation, and its OS is the latest among its tokens. (The text is right for empty equations only: the inherited data view starts one byte too early, so every other text starts with the escape of a null byte, with a warning, and loading it makes the equation a byte longer. The OS is right for equations of fewer than 256 bytes.)", "quantifier": "for every prefix-free token sheet, every sequence of tokens of fewer than 256 bytes", "why_tests_cant": "All token sequences; the repository's test data contain only empty equations in the converted dictionary.", "anchors": ["tivars/types/gdb.py: TIGraphedEquation", "tivars/types/tokenized.py: TokenizedEntry.string", "tivars/var.py: SizedEntry.data"]}
{"id": "C102", "title": "Groups, GDBs and tokenised entries need what their parts need", "statement": "The OS of a group is the latest among those of its members, at any depth of nesting; that of a graph database, or of given data taken for one, is the latest among the tokens of all its equations (of fewer than 256 bytes each); that of a tokenised entry the latest among its tokens; that of an assembly program the latest belonging to a marker that occurs anywhere in it; pictures, images, appvars and settings have fixed answers.", "quantifier": "for every nesting of groups, every token sequence, every total order of OS versions", "why_tests_cant": "Nesting of any depth; termination of the recursion is part of the proof.", "anchors": ["tivars/types/group.py: TIGroup.get_min_os", "tivars/types/gdb.py: TIMonoGDB.get_min_os", "tivars/types/tokenized.py: TokenizedEntry.get_min_os, TIAsmProgram.get_min_os", "tivars/types/picture.py: get_min_os", "tivars/types/appvar.py: TIAppVar.get_min_os"]}
{"id": "C103", "title": "The text of a radical loads again as the same number", "statement": "str() of a stored radical (components of three digits) loads again, whatever they are, as a radical with the same value. (It does so if and only if the denominator is not 0, a term does not vanish, and the two terms are not both integers or opposite multiples of one root; the zero radical prints 0 and the sum of two integers (2+3)/5, which are refused although the program can store both, and the latter reloads from its long form. Every text that loads, other than a sum of roots of 0, prints a text that loads as the same number.)", "quantifier": "for all component values, all texts in the documented form, all slot contents", "why_tests_cant": "Five three-digit components: 10^15 radicals; the equivalence is proved for all of them.", "anchors": ["tivars/types/real.py: TIRealRadical.__format__, TIRealRadical.load_string"]}
{"id": "C104", "title": "The text of a fraction, or of a fraction of pi, loads again as the same fraction", "statement": "Whatever nine bytes a fraction holds, its text loads again as the same fraction, if the fraction is less than 10^5 in magnitude; the same holds for fractional multiples of pi below 10^4 pi. (The second part is true of zero and of fractions with a denominator other than 1 only: an integer multiple of pi is shown without the sign of pi, and that text is refused.)", "quantifier": "for all payloads, all fractions in the range", "why_tests_cant": "All payloads; it needs an error analysis of dividing by pi with 14 digits and of the closest fraction.", "anchors": ["tivars/types/real.py: TIRealFraction.__format__, TIRealFraction.load_string, TIRealPiFraction.__format__, TIRealPiFraction.fraction, TIRealPiFraction.load_string"]}
{"id": "C105", "title": "The text of a real list loads again as the list", "statement": "str() of a real list of any length and contents loads again as a list of the same length with the same elements in the same order; lists of decimal numbers reload byte for byte. (Element by element this holds for decimal numbers with at most 14 decimal places, fractions that are not integers, radicals with a root in their text, non-zero multiples of pi and fractional multiples of pi; undefined numbers and integer fractions become ordinary numbers and rootless radicals fractions; and the empty list prints as [], which loads as a list of one zero.)", "quantifier": "for every length from 1 to 65535, every combination of element kinds", "why_tests_cant": "Any length and any mixture of kinds of numbers; needs the order in which the kinds are tried.", "anchors": ["tivars/types/list.py: TIList.__format__, TIRealList.load_string", "tivars/var.py: TIEntry.load_string"]}
{"id": "C106", "title": "The text of a matrix loads again as the matrix", "statement": "str() of a matrix loads again as a matrix of the same dimensions with the elements in the same places, under the same conditions on the elements as for lists; matrices of decimal numbers reload byte for byte. (The empty matrix prints as [], which loads as a 1 by 1 matrix of zero.)", "quantifier": "for all dimensions from 1 to 255, every combination of element kinds", "why_tests_cant": "All dimensions; nested brackets, spaces and separators of any number of rows.", "anchors": ["tivars/types/matrix.py: TIMatrix.__format__, TIMatrix.load_string", "tivars/var.py: TIEntry.load_string"]}
{"id": "C107", "title": "Smart tokenisation depends only on the tokens before", "statement": "In smart mode the text is cut left to right; each name is the longest match outside strings and names (and inside a string that follows Send( directly), and the shortest (a punctuation mark not split off) inside other strings, program names and list names. A quote, prgm, Send( or list marker outside opens the context; a quote, store arrow or line break ends a string; a token that is no digit, letter or theta, or the 9th (6th) token, ends a program (list) name. encode succeeds exactly on the texts that have such a cut, and gives its tokens; without those four openers smart mode and max mode agree.", "quantifier": "for every text, every trie without an empty name", "why_tests_cant": "All texts and tries; an equivalence, including when encoding fails.", "anchors": ["tivars/tokenizer/state.py: SmartMode.next, String.next, InterpolationStart.next, Name.next, Line.next", "tivars/tokenizer/encoder.py: encode"]}
{"id": "C108", "title": "The text of a complex number, reloaded", "statement": "str(e) of a complex number joins the texts of its parts, and load_string cuts it again. (False in general. The two texts are found again exactly unless: the real part is not 0 and the imaginary part is a fraction 1/q or -1/q; or the real part is not 0 and the imaginary part is the decimal -1; or the real part is 0 and the imaginary part is a whole number of a fraction kind. When the texts are found, parts of any kind that survive their own text reload as the same parts without a warning; decimals of at most 14 digits, fractions, nonzero multiples of pi, fractions of pi and one-term radicals do. For two fractions the exact set of numbers that survive is given. An imaginary part that is a sum of two roots silently loads as its first term without the denominator, or as 1 if the first term is negative.)", "quantifier": "for every complex number whose parts print without inner signs, and every imaginary part with two roots", "why_tests_cant": "All part values and all pairs of kinds; the cases that fail depend on the interplay of three replacements in printing with the cutting in reading.", "anchors": ["tivars/types/complex.py: ComplexEntry.__format__", "tivars/types/complex.py: ComplexEntry.load_string"]}
{"id": "C109", "title": "The dictionary of a graphed equation, reloaded", "statement": "dict() of a graphed equation followed by load_dict gives the same equation. (False in general. With a named style and one of the 15 colours it gives the same style, colour and reread tokens, and a flag byte with bits 0 and 1 set, bits 2 to 4 clear and bits 5 to 7 kept, so the flag byte survives exactly when its low five bits are 00011. With colour 0 (Mono) the key is left out and load_dict raises KeyError. With a style above 6 or a colour above 15 the value shown is None and load_dict raises TypeError.)", "quantifier": "for every flag byte, style byte, colour byte and token string", "why_tests_cant": "256 flag bytes times all styles and colours; the suite loads one parametric file whose equations all have colours.", "anchors": ["tivars/types/gdb.py: TIGraphedEquation.dict", "tivars/types/gdb.py: TIGraphedEquation.load_dict"]}
{"id": "C110", "title": "The dictionary of a colour GDB, reloaded", "statement": "Loading the dictionary of a colour GDB into a GDB of the same class gives the same payload. (False in general. It gives, without warnings, a payload described exactly: the styles, colours and line settings are kept; the numbers and tokens are those read back from what is shown; the size word is that of a GDB without tokens; bytes 2 and 5 become 0; bit 7 of the format byte is lost, and with it the grid bit; the other named bits are kept; the magic becomes 84C; border 0 becomes 4; in sequence mode vnMin takes the value of vnMinp1. The payload is unchanged exactly when none of these applies. Conditions: every equation has a colour, all values have names, and in sequence mode the plot type has no name.)", "quantifier": "for every well-formed colour GDB of the four modes, every reading of numbers and token texts", "why_tests_cant": "The claim ranges over all payloads; the suite compares dictionaries, which hide the bytes that change.", "anchors": ["tivars/types/gdb.py: TIMonoGDB.load_dict", "tivars/types/gdb.py: TIMonoGDB.dict", "tivars/types/gdb.py: TIGDB._load_dict", "tivars/types/gdb.py: TIGDB.dict"]}
{"id": "C111", "title": "The dictionary of a monochrome GDB", "statement": "A monochrome GDB can be loaded from its own dictionary. (False for every one: dict() leaves out the colour Mono, and load_dict requires the key, so loading raises KeyError. The same holds for a colour GDB with at least one equation of colour 0.)", "quantifier": "for every monochrome GDB with named styles, and every colour GDB with an uncoloured group", "why_tests_cant": "Universal failure over all payloads; the suite never loads a dictionary into a monochrome class.", "anchors": ["tivars/types/gdb.py: TIGraphedEquation.dict", "tivars/types/gdb.py: TIGraphedEquation.load_dict"]}
{"id": "C112", "title": "The dictionary of a sequence GDB", "statement": "A sequence GDB can be loaded from its own dictionary. (False whenever its plot type is one of the six named ones: dict() then adds seqSettings, in which load_dict reads the key seqMode of the outer dictionary, and raises KeyError.)", "quantifier": "for every colour sequence GDB with all colours set", "why_tests_cant": "All payloads; no sequence GDB is loaded from a dictionary in the suite.", "anchors": ["tivars/types/gdb.py: TIMonoSeqGDB._load_dict", "tivars/types/gdb.py: TIMonoSeqGDB.dict"]}
{"id": "C113", "title": "The packaged defaults load", "statement": "load_dict() without argument makes a well-formed GDB of the class. (True of TIFuncGDB, TIParamGDB and TIPolarGDB, whose exact payload is given. False of both sequence classes: KeyError. False of the three other monochrome classes: the object becomes a colour GDB of the monochrome size, with the colour data written over the last equations, so the payload is no GDB of its class at all. The defaults loaded into TIMonoGDB or TIGDB give a warning for each equation and each setting of the mode and then either a payload that is too short or, in parametric mode, IndexError.)", "quantifier": "for every object of the ten classes, whatever its previous payload, and every reading that knows the ten values in the files", "why_tests_cant": "Needs the absence of any well-formed reading of the result, and independence of the previous object.", "anchors": ["tivars/types/gdb.py: TIMonoFuncGDB.load_dict", "tivars/types/gdb.py: TIMonoGDB.load_dict", "tivars/types/json/func.default.json", "tivars/types/json/seq.default.json"]}
{"id": "C114", "title": "Unknown names in a GDB dictionary", "statement": "Unknown format settings, window settings and equation names are skipped with one warning each, and known format settings set and clear exactly their bits in order.", "quantifier": "for every list of texts, every byte, every dictionary of settings or equations", "why_tests_cant": "Lists of any length and order, any names.", "anchors": ["tivars/types/gdb.py: TIMonoGDB.load_dict", "tivars/types/gdb.py: GraphMode"]}
{"id": "C115", "title": "Constructing an entry from another entry", "statement": "Constructing an entry of a fitting class from another entry (or its bytes) gives an entry with the same contents. (True of everything but the version byte, which is replaced by the version computed from the data. The result equals the original exactly when the version byte was the computed one; refuted otherwise.)", "quantifier": "for every storable, unambiguous entry, every class that loads its type ID, every token sheet", "why_tests_cant": "All classes, all payloads and all version bytes; the suite constructs from files whose versions are already the computed ones.", "anchors": ["tivars/var.py: TIEntry.__init__", "tivars/var.py: TIEntry.load_bytes", "tivars/var.py: TIEntry.get_version"]}
{"id": "C116", "title": "Computed versions are recognised ones", "statement": "The version computed for an entry is one that its class recognises. (True of every class that recognises particular versions, except for tokenised classes when the version is 7 or 0x27, which no class lists. The version is always between 0 and 44, hence storable in its byte.)", "quantifier": "for every entry of every class, every data argument, every token sheet", "why_tests_cant": "Quantifies over all entries of all classes, including GDBs with any number of embedded equations.", "anchors": ["tivars/var.py: TIEntry.get_version", "tivars/types/tokenized.py: TokenizedEntry.get_version", "tivars/types/gdb.py: TIMonoGDB.get_version", "tivars/types/group.py: TIGroup.get_version"]}
{"id": "C117", "title": "The version warning of tokenised entries", "statement": "Loading bytes through a tokenised class warns about a wrong version exactly when the version byte differs from the version computed from the loaded data and the loaded entry is not an assembly program; and the warning about an invalid token, in the handler next to it, is never given.", "quantifier": "for every byte string that loads, every concrete tokenised class, every token sheet", "why_tests_cant": "An equivalence over all inputs, and the absence of a warning on all inputs.", "anchors": ["tivars/types/tokenized.py: TokenizedEntry.load_bytes", "tivars/types/tokenized.py: TIProgram.load_bytes"]}
{"id": "C118", "title": "The equation inside a GDB", "statement": "equation() of a graphed equation gives the equation of its tokens, with the same name, type and archive flag, the version of its tokens and no warning about its length; and loading that equation back into the graphed equation changes nothing.", "quantifier": "for every graphed equation with any flag byte, name and tokens", "why_tests_cant": "The slices are relative to the payload length; all lengths are covered, and the header keeps a length that is one too large on purpose.", "anchors": ["tivars/types/gdb.py: TIGraphedEquation.equation", "tivars/types/gdb.py: TIGraphedEquation.load_equation"]}
{"id": "C119", "title": "Typed texts of real numbers", "statement": "The text of a number in the format \"t\" (for typing on the calculator) loads as the same number as its plain text. (Exactly when the plain text has no slash and is not that of a negative whole fraction: then both texts load alike. Otherwise the typed text is refused and the number is left as it was. A fraction, or a fraction of pi, has a slash exactly when its denominator is not 1; a radical exactly when both terms are present or one is and the denominator is not 1; decimals and multiples of pi never.)", "quantifier": "for every real class, every payload that has a text, every prior value of the number that loads it, every fraction reader that refuses letters and tildes", "why_tests_cant": "An equivalence over all payloads; the suite compares a few typed texts with literals and never loads one.", "anchors": ["tivars/types/real.py: RealEntry.__format__", "tivars/types/real.py: RealEntry.load_string", "tivars/types/real.py: RealFractionEntry.load_string", "tivars/types/real.py: RealRadicalEntry.load_string"]}
{"id": "C120", "title": "Typed texts of lists", "statement": "The text of a list in the format \"t\" loads exactly like its plain text. (True when no element text has a slash and each rereads as a number that is not a fraction; if any element text has a slash, the typed text never loads. A list of decimal numbers therefore reloads byte for byte from its typed text.)", "quantifier": "for every list with any number of elements of any real kinds, every list that loads the text", "why_tests_cant": "Lists of every length and mixture of kinds, and every prior state of the loading list.", "anchors": ["tivars/types/list.py: ListEntry.__format__", "tivars/types/list.py: ListEntry.load_string"]}
{"id": "C121", "title": "Typed texts of matrices", "statement": "The text of a matrix in the format \"t\" loads exactly like its plain text. (True when no element text has a slash and each rereads as a number that is not a fraction; if any element text has a slash, the typed text never loads. A matrix of decimal numbers therefore reloads byte for byte from its typed text.)", "quantifier": "for every matrix of any size, elements of any real kinds, every matrix that loads the text", "why_tests_cant": "Matrices of every size and mixture of kinds; rows are written without a separator, which the reader has to cope with.", "anchors": ["tivars/types/matrix.py: TIMatrix.__format__", "tivars/types/matrix.py: TIMatrix.load_string"]}
{"id": "C122", "title": "Typed texts of complex numbers", "statement": "The text of a complex number in the format \"t\" loads exactly like its plain text. (For decimal parts: true when the real part is 0 or the imaginary part is not negative; otherwise the typed text is refused, because the reader splits only at + and -, not at the tilde. For parts of other kinds the two pieces the reader finds are determined in the same way.)", "quantifier": "for every pair of decimal parts with at most fourteen decimals, every complex number that loads the text", "why_tests_cant": "All coefficients, exponents and signs of both parts; the suite never loads a typed text.", "anchors": ["tivars/types/complex.py: ComplexEntry.__format__", "tivars/types/complex.py: ComplexEntry.load_string"]}
{"id": "C123", "title": "Saving and opening monochrome pictures with PIL", "statement": "An image saved by the 8xi plugin is opened by it with the same size and pixels: saving gives no warning, the file has an accepted magic, it opens without a warning as 96 by 63 in mode L, and each pixel comes back as 0 if it was 0 and as 255 otherwise. The other two plugins refuse the file with TypeError.", "quantifier": "for every image of 96 by 63 pixels with any integer values", "why_tests_cant": "2^6048 images; the suite opens one picture and saves it again.", "anchors": ["tivars/PIL/common.py: TIEncoder.encode", "tivars/PIL/common.py: TIImageFile._open", "tivars/PIL/common.py: TIDecoder.decode", "tivars/PIL/common.py: accept"]}
{"id": "C124", "title": "Saving and opening colour pictures with PIL", "statement": "An image saved by the 8ci plugin is opened by it, without a warning, as 266 by 165 in mode RGB, and each pixel comes back as a palette colour nearest to it; an image whose pixels are all in the palette comes back exactly. The other two plugins refuse the file with TypeError.", "quantifier": "for every image of 266 by 165 pixels with any integer channels", "why_tests_cant": "All colours at all 43890 positions; the suite saves one picture already in the palette.", "anchors": ["tivars/PIL/common.py: TIEncoder.encode", "tivars/PIL/common.py: TIImageFile._open", "tivars/PIL/common.py: TIDecoder.decode", "tivars/types/picture.py: TIPicture.load_array"]}
{"id": "C125", "title": "Saving and opening full-colour images with PIL", "statement": "An image saved by the 8ca plugin is opened by it with the same size and, up to the quantisation of RGB565, the same pixels. (False of every image: load_array leaves a length word that is one too small, so reading the file warns about its length, and _open turns warnings into errors. Saving gives no warning, and the pixels in the file are right.)", "quantifier": "for every image of 133 by 83 pixels with channels from 0 to 255", "why_tests_cant": "The suite opens an image made by a calculator, but never saves one.", "anchors": ["tivars/PIL/common.py: TIEncoder.encode", "tivars/PIL/common.py: TIImageFile._open", "tivars/types/picture.py: TIImage.load_array", "tivars/types/picture.py: PictureEntry.coerce"]}
{"id": "C126", "title": "Sizes and formats of PIL pictures", "statement": "A plugin saves only images of its own size, opens only files of its own format, and every file it opens can be decoded. (True: an image with another number of pixels is refused with ValueError and nothing is written; a file that opens has the size and mode of the plugin's format, and no file opens in two plugins; a file without entries raises IndexError. False: only the number of pixels is checked, so an image 63 wide and 96 high is saved as one 96 wide and 63 high; and a picture shorter than its length word opens without a warning, but cannot be decoded.)", "quantifier": "for every number of pixels, every file, every pair of plugins", "why_tests_cant": "Every byte string as a file; the suite opens three valid files.", "anchors": ["tivars/PIL/common.py: TIEncoder.encode", "tivars/PIL/common.py: TIImageFile._open", "tivars/PIL/common.py: TIDecoder.decode"]}
{"id": "C127", "title": "Layout of hexadecimal dumps", "statement": "A dump shows every byte of the data, in order, as two digits in the case of the letter x or X. With a width n above 0, a separator stands before a byte when the number of bytes from it to the end is a multiple of n; with n below 0, when the number of bytes before it is a multiple of -n; with n = 0, nowhere. The separator is the character after the letter, put in the case of the dump, or a space; a separator without a width means width 1, and neither means no separators. The length of a dump of L > 0 bytes is 2L + (L-1) div |n|.", "quantifier": "for every data, every sign and digits of a width that fits a C int (leading zeros and Unicode digits included), every ASCII separator, both cases", "why_tests_cant": "All widths against all lengths; the suite dumps one entry with a few format strings.", "anchors": ["tivars/var.py: TIEntry.__format__"]}
{"id": "C128", "title": "A dump determines the data", "statement": "With a fixed non-empty format string, two entries with the same dump have the same data, even if the separator is a hexadecimal digit.", "quantifier": "for every format string, all pairs of data", "why_tests_cant": "Pairs of data of any lengths; with the separator a, the dumps aaaaaaaa could be of three bytes or of four.", "anchors": ["tivars/var.py: TIEntry.__format__"]}
{"id": "C129", "title": "Format strings of entries", "statement": "A format string is accepted exactly if it is empty or consists of an optional width (sign and digits), the letter x or X, and at most one character that is no digit; all others raise TypeError. It has this shape in at most one way. Of those with the shape, one with more than 4300 digits raises ValueError, otherwise one with a width outside a C int OverflowError, otherwise one with a separator outside ASCII ValueError, also when the data are empty.", "quantifier": "for every string and all data", "why_tests_cant": "All strings; the suite tries a handful of valid ones.", "anchors": ["tivars/var.py: TIEntry.__format__"]}
{"id": "C130", "title": "Dumps of tokenized entries", "statement": "The format strings of dumps give dumps for programs, strings and equations as for other entries. (False: a small x followed by a separator that is not a word character, such as \"x:\", gives the text with its lines numbered in hexadecimal. True of all other format strings of dumps. In the false case the dump comes out only if decoding or numbering raises AttributeError, KeyError, TypeError or ValueError.)", "quantifier": "for every format string of a dump, all data, any decoder and any formatting of integers", "why_tests_cant": "All widths and separators; the suite only tries the empty format string and \"t\".", "anchors": ["tivars/types/tokenized.py: TokenizedEntry.__format__", "tivars/var.py: TIEntry.__format__"]}
{"id": "C131", "title": "Numbered lines", "statement": "Numbering the lines of a text puts the formatted number and the separator before every line and leaves the lines as they are, counting from 0. The numbered text determines the text, whatever the number format and the separator, even if they contain newlines.", "quantifier": "for every text, separator and formatting of integers", "why_tests_cant": "All texts and separators; the suite numbers no lines.", "anchors": ["tivars/types/tokenized.py: TokenizedEntry.__format__"]}
{"id": "C132", "title": "Dumps of real numbers", "statement": "The format strings of dumps give dumps for real numbers as for other entries. (False of two kinds: x or X followed by one of < > = ^ gives the number, since the letter is a fill character of decimal numbers; and with the separator t the dump has the separator f instead. True of all others.)", "quantifier": "for every format string of a dump and all data, if format() of Decimal refuses these strings except the first kind", "why_tests_cant": "All widths and separators; the suite tries no dump of a real number with a separator.", "anchors": ["tivars/types/real.py: RealEntry.__format__", "tivars/var.py: TIEntry.__format__"]}
{"id": "C133", "title": "Format strings of texts", "statement": "The format string of a tokenised entry consists of optional line numbers (a number format ending in a small letter, % or #, and a separator without word characters), an optional kind (d for display; a or t for accessible) and an optional language after a dot, English by default; a single newline counts as an empty format string. The text comes out as the kind and the language ask, with its lines numbered if a number format is given. (True, with one exception: a language of one letter right after a kind, or right after the separator, is read as something else; d.e raises TypeError. If decoding or numbering raises AttributeError, KeyError, TypeError or ValueError, the format string is tried as that of a dump.)", "quantifier": "for every number format, separator, kind and language, any decoder and any formatting of integers", "why_tests_cant": "An ambiguous expression with a lazy and a greedy part over all strings; the suite tries the empty format string and \"t\".", "anchors": ["tivars/types/tokenized.py: TokenizedEntry.__format__"]}
{"id": "C134", "title": "Texts of complex lists", "statement": "A complex list reloads from its own text: the text of a nonempty list of complex numbers with decimal parts always loads, with a warning only for more than 999 elements, into as many plain complex numbers. (False of the bytes: they come back exactly if no element is something nonzero minus i and no part has digits beyond the fourteenth decimal place; [3 - i] comes back with -0 as imaginary part. An element whose real text is first read by some kind of number comes back with its real part in that kind if its imaginary text is a decimal.)", "quantifier": "for every list of fewer than 65536 elements and any encoding of names that fits", "why_tests_cant": "All lists of all decimals; the suite loads lists of a few small numbers.", "anchors": ["tivars/types/list.py: ListEntry.load_string, ListEntry.__format__", "tivars/types/complex.py: ComplexEntry.load_string, ComplexEntry.__format__"]}
{"id": "C135", "title": "Texts of complex lists with exact imaginary parts", "statement": "A complex list with fractions, radicals or multiples of pi as imaginary parts reloads from its own text. (False, for every such list: an element whose imaginary text contains a slash, a root or a pi sign, and whose parts are shown without inner signs, makes the text of the list unreadable, because every element starts as a blank complex number with a decimal imaginary part; [3 + 3i/5] is refused although 3 + 3i/5 reloads into a complex fraction.)", "quantifier": "for every list with such an element, of any length and with any other elements that can be shown", "why_tests_cant": "All lists with one such element among any others; the suite has no complex list with exact parts.", "anchors": ["tivars/types/list.py: ListEntry.load_string", "tivars/types/complex.py: ComplexEntry.load_string"]}
{"id": "C136", "title": "Loading floats", "statement": "Loading a float into a real number or an undefined real number stores the digits of its exact binary value, cut after the fourteenth significant digit, with its sign; zero becomes plain zero with its sign; a value whose exponent does not fit raises OverflowError; infinities and NaN raise ValueError and change nothing; radicals and multiples of pi refuse every float with NotImplementedError. An integer of at most 4300 digits is stored in the same way, exactly if it has at most 14 digits; a longer one raises ValueError and changes nothing.", "quantifier": "for every finite binary number m * 2^e (not only doubles), every integer and every nine-byte buffer", "why_tests_cant": "Infinitely many binary values with up to a thousand decimal digits; the suite loads a handful.", "anchors": ["tivars/types/real.py: RealEntry.load_float, TIReal.load_decimal, TIReal.load_string"]}
{"id": "C137", "title": "Floats of real numbers", "statement": "TIReal(number.float()) is the number. (False: 0.3 becomes 0.29999999999999. float() gives the nearest 53-bit float; the number comes back exactly if that float is not below it in absolute value, in particular if it is whole and at most 141 in the exponent byte; otherwise one unit is lost in the fourteenth digit, and the least number overflows.)", "quantifier": "for every stored number with 14 digits, the first not 0, and for zero", "why_tests_cant": "About 4.6 * 10^16 stored numbers; which of them fail depends on binary rounding.", "anchors": ["tivars/types/real.py: RealEntry.float, RealEntry.load_float, TIReal.decimal, TIReal.load_string"]}
{"id": "C138", "title": "Floats of fractions", "statement": "A fraction loaded from a float is the nearest number of 14 digits, so that TIRealFraction(number.float()) has the value of the number for every stored number with 14 digits.", "quantifier": "for every finite binary number, given that Fraction(text) reads the exact decimal text of the float", "why_tests_cant": "All 14-digit numbers; the suite converts a few fractions.", "anchors": ["tivars/types/real.py: TIRealFraction.load_string, TIRealFraction.load_fraction, RealEntry.load_float, RealEntry.float"]}
{"id": "C139", "title": "Complex numbers from Python", "statement": "Loading a Python complex number into a complex number or complex fraction loads each part by the kind of number that part is and keeps both kinds; decimal parts are cut like real numbers; the other complex classes, and real parts that are radicals or multiples of pi, refuse with NotImplementedError. Loading a complex number of two decimals from its own complex() gives it back. (False: 0.5 + 0.3i becomes 0.5 + 0.29999999999999i. It comes back exactly if neither float is below its decimal in absolute value.)", "quantifier": "for every pair of floats whose parts load, every 18-byte payload of known kinds, and every pair of 14-digit decimals or zeros", "why_tests_cant": "All pairs of floats and payloads; the suite loads a few complex constants.", "anchors": ["tivars/types/complex.py: ComplexEntry.load_complex, ComplexEntry.complex, ComplexEntry.real, ComplexEntry.imag"]}
{"id": "C140", "title": "Integers of real numbers", "statement": "int() of a real number cuts its fraction off. (True below ten to the fourteenth although it goes through a float, and for whole numbers below two to the fifty-third; beyond, the integer is the number exactly if its float is exact: int(TIReal('1e23')) is 99999999999999991611392.)", "quantifier": "for every stored number with 14 digits, the first not 0, and for zero", "why_tests_cant": "All 14-digit numbers over 256 exponents; the suite takes int() of small numbers.", "anchors": ["tivars/types/real.py: RealEntry.__int__, RealEntry.float, TIReal.decimal"]}
{"id": "C141", "title": "Numbers in dictionaries", "statement": "TIReal(number.json_number()) is the number. (False: 0.3 is written as a float and comes back as 0.29999999999999. A number whose text has more than six characters is written as a text and always comes back exactly; a shorter one is written as a float and comes back exactly if that float is not below it in absolute value; zero comes back as plain zero; whole numbers written by int() come back up to ten to the fourteenth. No two stored numbers have the same float.)", "quantifier": "for every stored number with 14 digits, the first not 0, and for zero", "why_tests_cant": "About 4.6 * 10^16 stored numbers; the suite has a few default windows.", "anchors": ["tivars/types/real.py: RealEntry.json_number, RealEntry.load_float, TIReal.load_string", "tivars/types/gdb.py: TIMonoGDB.load_dict"]}
{"id": "C142", "title": "Numbers of a GDB through its dictionary", "statement": "A colour GDB loaded from its own dictionary has the same window numbers. (False: Xscl = 0.3 becomes 0.29999999999999. True without any warning if each number shown comes back as C141 says and Xres is 1 to 8; the values under vnMin are those of vnMinp1 as in C110. The packaged defaults of function, parametric and polar GDBs load as C113 says with the real number reader in place of a parameter.)", "quantifier": "for every colour GDB that C110 covers, with the readers and writers of numbers and the warnings about them modelled; the reading of equation texts stays a parameter", "why_tests_cant": "All combinations of window numbers; the suite loads one GDB per mode.", "anchors": ["tivars/types/gdb.py: TIMonoGDB.load_dict, TIMonoGDB.dict", "tivars/types/real.py: RealEntry.json_number"]}
{"id": "C143", "title": "Settings that must be whole", "statement": "Storing a number in PlotStart, nMax, nMin, PlotStep, TblMin or DeltaTbl warns exactly if the number is not whole, and storing one in Xres warns exactly if it is not one of 1 to 8, although the checks compare an int and a float made from the number.", "quantifier": "for every stored decimal number with 14 digits, the first not 0, and for zero", "why_tests_cant": "About 4.6 * 10^16 stored numbers, compared through binary rounding; the suite stores a few small integers.", "anchors": ["tivars/types/gdb.py: TIMonoFuncGDB.Xres, TIMonoSeqGDB.PlotStart, TIMonoSeqGDB.nMax, TIMonoSeqGDB.nMin, TIMonoSeqGDB.PlotStep", "tivars/types/settings.py: TITableSettings.TblMin, TITableSettings.DeltaTbl, TIWindowSettings.Xres"]}
{"id": "C144", "title": "Texts of fractions", "statement": "Fraction(text), which load_string of fractions calls on the text without white space, gives the value of the text in lowest terms for a sign and two whole numbers with a slash, or a number with a point, an exponent, both or neither, with single underscores between digits; it raises ZeroDivisionError for a zero below the slash and ValueError for every other text, in particular for one with any other character, and for more than 4300 digits on either side of a slash or point. So every fraction that is printed in lowest terms is read back, every finite float is read as its exact decimal text, and the round trips of C104 and C138 hold without an assumption on Fraction.", "quantifier": "for every text without white space; the values for texts of at most 4300 characters; numerators below 10^9 and denominators up to 10^4 for printed fractions", "why_tests_cant": "All texts; the suite loads a handful of fractions.", "anchors": ["tivars/types/real.py: TIRealFraction.load_string, TIRealFraction.load_fraction"]}
{"id": "C145", "title": "GDBs with equations through their dictionaries", "statement": "Loading a GDB from its own dictionary leaves it unchanged; a missing text is an empty equation and a number, truth value or dictionary raises TypeError. (The first is false as soon as one equation is not empty: string() of an equation in a GDB starts with the escape of a null byte (C101), and TIEquation(text) encodes that escape, so an equation whose tokens stand behind k null bytes comes back behind k + 1; null bytes alone come back as an empty equation. Everything else comes back as in C110 and C142, the GDB is unchanged exactly if all equations are empty and the conditions of C110 hold, n trips put n null bytes in front of each non-empty equation, and the KeyErrors of C111 and C112 are raised whatever the equations are.)", "quantifier": "for every GDB as in C142 with equations of fewer than 256 bytes made of tokens of any prefix-free sheet behind null bytes, whose texts can be encoded; every number of trips while the equations stay within 256 bytes; warnings are not compared", "why_tests_cant": "The suite loads and shows GDBs separately and never compares the equations after a trip; the growth needs two trips to show.", "anchors": ["tivars/types/gdb.py: TIGraphedEquation.load_dict, TIGraphedEquation.dict, TIGraphedEquation.load_equation", "tivars/types/tokenized.py: TokenizedEntry.load_string, TIEquation.__init__", "tivars/var.py: TIEntry.__init__"]}
{"id": "C146", "title": "Signs of radicals", "statement": "sign of a radical is the sign of its value, and 1 for a value of 0. (True of every value other than 0 although decimal() works with 28 digits. False of 0: √12 - 2√3 has the decimal value -1E-27 and sign -1, 2√3 - √12 has sign 1; a value of 0 gets sign 1 if the radicands are equal, a term is 0 or both radicands are squares. A denominator of 0 raises, and nothing else does.)", "quantifier": "for every nine bytes, also with nibbles that are not decimal digits (components up to 1665)", "why_tests_cant": "Whether 28 digits are enough depends on how close two of about 10^12 differences of roots come to 0; tests show a few radicals, never one that vanishes.", "anchors": ["tivars/types/real.py: TIRealRadical.sign, TIRealRadical.decimal, TIRealRadical.signed_left_scalar, TIRealRadical.signed_right_scalar", "tivars/numeric.py: LeftNibbleBCD.get, RightNibbleBCD.get"]}
{"id": "C147", "title": "Copies of vars", "statement": "copy.copy(var) has the header, the entries, the bytes, the name and the target model of var and equals it. (Header and bytes agree; the name becomes UNNAMED and the model None, so the copy of a var for the TI-83 is saved as UNNAMED.8xp; the copy is equal exactly if loading gives every entry the class it had, which fails for an entry still of class TIEntry.) A var is true exactly if it has entries, and clear() leaves the header with an empty file.", "quantifier": "for every var of restorable entries (C11) below 65536 bytes, every order of models", "why_tests_cant": "The suite copies entries and headers but no var, and equality of vars ignores exactly what is lost.", "anchors": ["tivars/var.py: TIVar.__copy__, TIVar.__init__, TIVar.__bool__, TIVar.is_empty, TIVar.clear, TIVar.filename, TIVar.extension"]}
{"id": "C148", "title": "Classes of the entries of a file", "statement": "The entries that a var file gives have exactly the class that their type byte and data ask for: the type byte decides, except that lists are real or complex by their first element (else by type), programs are assembly programs by their contents (C51), pictures are told apart by their length word (else by type), and graph databases of at most 61 bytes are monochrome, longer ones coloured, with the class of their mode byte; unknown types stay TIEntry. Hence a copy of a var equals it exactly if every entry has the class its bytes ask for. (Which a monochrome graph database longer than its fixed part has not: it comes back coloured and unequal.)", "quantifier": "for every var of restorable entries (C11) below 65536 bytes, every class, type byte and payload", "why_tests_cant": "The suite loads one file per kind; mixed or odd combinations of type byte and data are not tried.", "anchors": ["tivars/var.py: TIEntry.coerce, TIEntry.get_type, TIEntry.load_bytes, TIVar.load_bytes, TIVar.__copy__", "tivars/types/list.py: ListEntry.coerce", "tivars/types/complex.py: ComplexEntry.coerce", "tivars/types/tokenized.py: TIProgram.coerce", "tivars/types/picture.py: PictureEntry.coerce", "tivars/types/gdb.py: TIMonoGDB.coerce, TIGDB.coerce"]}
{"id": "C149", "title": "Numbers in the dictionaries of settings", "statement": "dict() of window settings, recalled windows and table settings shows every setting once under its own name, in the order of the fields, and two settings entries with equal dictionaries have equal settings, byte for byte. (Proved where the settings shown by int() hold whole numbers below 10^14; a table that starts at 0.5 shows TblMin 0 like one that starts at 0.)", "quantifier": "for every entry of the three settings classes of the fixed length, whose settings are decimal numbers in normal form", "why_tests_cant": "The suite checks two fields of one file per class.", "anchors": ["tivars/types/settings.py: TIWindowSettings.dict, TIRecallWindow.dict, TITableSettings.dict", "tivars/types/real.py: RealEntry.json_number, RealEntry.__int__"]}
{"id": "C150", "title": "Tokens survive their own text", "statement": "The text of a tokenised entry, loaded again, gives the same tokens and bytes. (Refuted: the tokens A and B have the text of the token AB. It does so exactly if the tokens are the cut that smart tokenisation makes of that text; then loading the text is loading the tokens. It always does so where no token name begins another and each token is shown by a name that is its own. Where each token has just the name it is shown by, the bytes of a text that was encoded are kept by further trips; with further names they may change again.)", "quantifier": "for all token sheets on which no key begins another, all token sequences on them, and all texts without backslashes (and unchanged by normalisation, where a second trip is claimed)", "why_tests_cant": "The suite compares one program with its text; the property quantifies over token sequences and sheets.", "anchors": ["tivars/types/tokenized.py: TokenizedEntry.load_string, TokenizedEntry.string, TokenizedEntry.load_tokens", "tivars/tokenizer/encoder.py: encode", "tivars/tokenizer/decoder.py: decode"]}
{"id": "C151", "title": "Flags are ordered by their value", "statement": "Two sets of flags read from bytes compare under <, <=, ==, >= and > as their values do. (Refuted for <= and >=, which raise TypeError for all flags: total_ordering adds nothing, since dict has these methods already. Proved for <, == and >. Flags made with different widths may be neither below, equal nor above one another.)", "quantifier": "for all byte strings, of any lengths, that flags are read from; for all flags where <= and >= are concerned", "why_tests_cant": "The suite never orders flags.", "anchors": ["tivars/flags.py: Flags (total_ordering), Flags.__gt__, Flags.__int__"]}
{"id": "C152", "title": "Token containers", "statement": "A container of tokens can be built exactly if every token has English and every other language of the sheet, every name map refers to tokens of the sheet, and English is among the languages. Indexing it by bytes gives the token filed under them; indexing it by a name gives the token that the last language having that name gives it; the trie of a language holds each token under its names in that language. On sheets whose name maps agree with their tokens, the trie of a language and indexing by name agree for the names that no later language has. (For names that several languages have, they need not agree: refuted by a witness.)", "quantifier": "for all sheets with any number of tokens, languages and names, as dictionaries", "why_tests_cant": "The suite uses the one sheet of the project and looks up single names in it.", "anchors": ["tivars/trie.py: TITokens.__init__, TITokens.__getitem__, TITokenTrie.from_tokens, TITokenTrie.insert", "tivars/token.py: TIToken.__init__"]}
{"id": "C153", "title": "Licenses and saved flash headers", "statement": "The license of a license header is the data of the header in latin-1 without the NULs at its end, also when the header is opened from a file; a license that is assigned is stored. A header saved under a name and opened again is the same header; if its bytes cannot be made, the exception comes after the file was emptied. (Refuted for assignments, which raise TypeError for every header and every latin-1 text, and UnicodeEncodeError for other texts. Saving is proved for headers of the shape that survives, C63: a name of eight bytes and one device.)", "quantifier": "for all license headers and texts; for all files with any number of well-formed headers; for all headers of that shape", "why_tests_cant": "The suite has no license file.", "anchors": ["tivars/types/flash.py: TILicense.license", "tivars/flash.py: TIFlashHeader.save, TIFlashHeader.filename, TIFlashHeader.open", "tivars/data.py: View.__set__"]}
{"id": "C154", "title": "Decimal values of radicals", "statement": "decimal() of a radical is its value to 21 places: every root is exact or correctly rounded to 28 digits, and the denominator times the result is within 400000 * 10^-27 of the sum of the two terms, each of which is known within 80000 * 10^-27. A denominator of 0 raises ZeroDivisionError. (For 0/0 the decimal module raises InvalidOperation; not distinguished in the model.)", "quantifier": "for every nine-byte payload; the rounding of roots for every precision p and every whole number below 10^(2p)", "why_tests_cant": "All payloads and all rounding cases; the suite compares a few radicals with their floats.", "anchors": ["tivars/types/real.py: TIRealRadical.decimal"]}
{"id": "C155", "title": "Numbers, lists and texts after saving and opening", "statement": "What is loaded into an entry is there after the file is saved and opened: a number written as text with its exact decimal value, a list or matrix with the same numbers, an equation or program with the tokens the encoder chose; the file gives back exactly its entries if and only if the class of each is the one its type byte and data ask for. (So a program whose bytes are taken for assembly comes back, with the same tokens, as an assembly program, and a complex list comes back as a real list exactly if its first real part is tagged as a real, undefined, fraction or radical number.) Entries whose version and archive bytes spell the data length are excluded (C11).", "quantifier": "for every header, every list of other entries in the file and every text, list, matrix or token sequence; the file shorter than 65536 bytes", "why_tests_cant": "Composes the loaders, the writer, the reader and the choice of class for all inputs; the suite saves and opens a few sample files.", "anchors": ["tivars/var.py: TIVar.bytes", "tivars/var.py: TIVar.load_bytes", "tivars/var.py: TIEntry.coerce", "tivars/types/real.py: TIReal.load_string", "tivars/types/list.py: TIList.load_list", "tivars/types/matrix.py: TIMatrix.load_matrix", "tivars/types/tokenized.py: TokenizedEntry.load_string"]}
{"id": "C156", "title": "Pictures and graph databases after saving and opening", "statement": "A picture comes back from its saved file as itself exactly if its length word is not that of another picture class (a monochrome one exactly if it is 756); so pixels loaded into a monochrome picture, colour picture or image of the right size are there after saving and opening, and pictures given too few or too many rows may come back in another class, whose array() raises IndexError. A colour graph database comes back as itself exactly if its mode byte is that of its class. (A monochrome one never does: it comes back as the colour class with the same bytes, though those have no colours.) In general each entry comes back with its bytes, and the class they ask for (C148). Entries whose version and archive bytes spell the data length are excluded (C11).", "quantifier": "for every header, every list of other entries in the file, every array of pixels and every well-formed graph database of each mode; the file shorter than 65536 bytes", "why_tests_cant": "All arrays, and monochrome graph databases, of which the suite saves none through a var file.", "anchors": ["tivars/types/picture.py: PictureEntry.coerce", "tivars/types/picture.py: TIMonoPicture.load_array", "tivars/types/picture.py: TIPicture.load_array", "tivars/types/picture.py: TIImage.load_array", "tivars/types/gdb.py: TIMonoGDB.coerce", "tivars/types/gdb.py: TIGDB.coerce", "tivars/var.py: TIVar.bytes", "tivars/var.py: TIVar.load_bytes"]}
{"id": "C157", "title": "Complex numbers, exact numbers and settings after saving and opening", "statement": "Real numbers of every kind, matrices, equations, strings, settings, groups and app variables come back from the saved file as they are, whatever their data; complex numbers do if the tag of the imaginary part is the type byte, which is so after assigning both parts and after loading a text such as -1.5+12i: the file then gives back the same parts, respectively the exact decimal values. A parameter assigned in window, recalled window or table settings is there after opening. (A complex number whose type byte differs from that tag comes back with another type byte and class, and a warning that the checksum is wrong.) Entries whose version and archive bytes spell the data length are excluded (C11).", "quantifier": "for every header, every list of other entries in the file, every pair of part kinds and payloads, every pair of literals of at most 14 significant digits (C75), every settings parameter; the file shorter than 65536 bytes", "why_tests_cant": "Composes assignment, writer, reader and the choice of class for all inputs.", "anchors": ["tivars/types/complex.py: ComplexEntry.coerce", "tivars/types/complex.py: ComplexEntry.real", "tivars/types/complex.py: ComplexEntry.imag", "tivars/types/complex.py: ComplexEntry.load_string", "tivars/types/settings.py: TIWindowSettings, TIRecallWindow, TITableSettings", "tivars/var.py: TIVar.bytes", "tivars/var.py: TIVar.load_bytes"]}
{"id": "C158", "title": "An entry saved to a file of its own", "statement": "Opening the file that entry.save writes, with any class, gives what loading the entry's bytes with that class gives, with no warning beyond those of the load, the constructor and the file name; so type(entry).open gives what copying the entry gives (C92), an equal entry for classes that do not depend on the data exactly if the version and archive bytes do not spell the data length; and the file name chosen when none is given has an extension that open accepts. (For entries with data: an entry without data is not what its file holds, since a fresh entry replaces it, C17. For models whose extension lookup raises KeyError, C19, nothing is saved without a dotted file name.)", "quantifier": "for every non-empty entry, class, header and model for which the save succeeds, and every file name", "why_tests_cant": "All entries, headers, models and names.", "anchors": ["tivars/var.py: TIEntry.save", "tivars/var.py: TIEntry.export", "tivars/var.py: TIEntry.open", "tivars/var.py: TIVar.save", "tivars/var.py: TIVar.extension", "tivars/var.py: TIVar.add_entry"]}
{"id": "C159", "title": "A group saved, opened and ungrouped", "statement": "Grouping entries (those C52 covers), saving the group among other entries and opening the file gives a group in the same place whose ungrouping gives the entries back: the same raw contents in the same order, the same entries if each is of the class registered for its type byte and program text is not taken for assembly; and saving the ungrouped entries writes byte for byte the file that saving the original entries writes, whatever their classes. (For files that can be written and whose entries can be told from flashless ones, C11.)", "quantifier": "for every non-empty sequence of groupable entries, every header and all entries around the group", "why_tests_cant": "All sequences of entries, of all sizes.", "anchors": ["tivars/types/group.py: TIGroup.group", "tivars/types/group.py: TIGroup.ungroup", "tivars/var.py: TIVar.bytes", "tivars/var.py: TIVar.load_bytes"]}
{"id": "C160", "title": "Exact numbers in graph parameters", "statement": "Assigning a real number of any class to a parameter of a GDB or of settings stores its nine bytes, changes no other field, and gives the warning that graph parameters cannot store the class exactly for classes other than TIReal, TIUndefinedReal and TIRealFraction; reading the parameter gives an entry with those bytes, of the real class that their tag names, whatever class was assigned. (Apart from the whole-number tests of C143. A parameter whose tag is no type reads as a bare GraphRealEntry with a warning. It is false that a parameter always reads as a real number: a parameter tagged 4 reads as a TIString.)", "quantifier": "for every GDB and settings class, parameter, number class and nine bytes", "why_tests_cant": "All parameters, classes and byte values.", "anchors": ["tivars/types/real.py: GraphRealEntry.set", "tivars/types/real.py: RealEntry.coerce", "tivars/var.py: TIEntry.get", "tivars/types/gdb.py: TIMonoGDB.Xmin", "tivars/types/settings.py: TITableSettings.TblMin"]}
{"id": "C161", "title": "Files cut short", "statement": "A saved file cut after any number of its bytes either cannot be opened or gives a warning about a meta length, a data length, the length of the entries or the checksum. More generally any bytes that open without one of these warnings are a header of 53 bytes, a length word, exactly that many bytes of entries and the checksum of the entries loaded, and each entry is what its own bytes load as. (Bytes after the checksum are not noticed.)", "quantifier": "for every saved var and every cut; for every byte string at all", "why_tests_cant": "All byte strings and all positions of the cut; partly read words, and seeks that move back too far at the end of the file, are covered.", "anchors": ["tivars/var.py: TIVar.load_bytes", "tivars/var.py: TIEntry.next_entry_length", "tivars/var.py: TIVar.checksum"]}
{"id": "C162", "title": "Opening and saving any file", "statement": "Any bytes that open as a var without a warning about their structure (meta length, type, data lengths, missing flash bytes, length of the entries, checksum) consist of a header of 53 bytes, a length word, the entries and the checksum, and saving the var gives exactly these bytes again if every entry kept its type byte. Each single entry loaded so is saved as the bytes it came from exactly if its type byte was kept. (The condition is needed: a complex number whose imaginary part has another type gets that type, so a file with a fitting checksum opens without any warning and is saved as different bytes.)", "quantifier": "for every byte string, every var it is loaded into and every name, version and program test function", "why_tests_cant": "All byte strings, not only those this library writes; headers with any content and entries with any payload are covered.", "anchors": ["tivars/var.py: TIVar.load_bytes", "tivars/var.py: TIVar.bytes", "tivars/var.py: TIEntry.load_bytes", "tivars/var.py: TIEntry.coerce", "tivars/var.py: TIEntry.bytes"]}
{"id": "C163", "title": "Opening a file settles it", "statement": "Any bytes that open as a var without a warning about their structure, saved, give a file that again opens without one, to entries with the same raw contents, and that is saved as it is, provided no entry is left with type 0x23 or with version and archive bytes that spell its data length. (Without the condition it is false: a complex number whose imaginary part has type 0x23 changes its type on opening twice in a row, and an empty graphed equation gains a byte, after which its flash bytes can be taken for its length.)", "quantifier": "for every byte string that can be saved again once opened, every target model whose check passes, and every name, version and program test function with which the default entry can be made without a structural warning", "why_tests_cant": "All byte strings and all payloads; the two counterexamples are files no test would think of.", "anchors": ["tivars/var.py: TIVar.load_bytes", "tivars/var.py: TIVar.bytes", "tivars/var.py: TIEntry.coerce", "tivars/types/complex.py: ComplexEntry.coerce", "tivars/types/gdb.py: TIGraphedEquation.coerce"]}
{"id": "C164", "title": "Errors on opening any bytes", "statement": "Opening arbitrary bytes as a var never raises. (False: it raises IndexError if a slice of the bytes is a list entry of fewer than three data bytes, and ValueError if one is a complex number of fewer than ten; these are the only errors, whatever the header, lengths, types and data are. For the bytes of a single entry the condition is exact.)", "quantifier": "for every byte string, every var whose target model passes the check against the header, and every name, version and program test function with which the default entry can be made", "why_tests_cant": "All byte strings; every combination of type byte, damaged length words and short data is covered.", "anchors": ["tivars/var.py: TIVar.load_bytes", "tivars/var.py: TIEntry.load_bytes", "tivars/var.py: TIEntry.coerce", "tivars/types/list.py: TIList.coerce", "tivars/types/complex.py: ComplexEntry.coerce"]}
{"id": "C165", "title": "Ungrouping any bytes", "statement": "Ungrouping arbitrary bytes gives the entries that the bytes describe and never raises. (The first half is true, in this sense: type byte modulo 64, version, page, name and data of every member are read as the format says, a matrix getting only as many data bytes as it has elements, an unknown type all that is left, and damaged lengths as many bytes as there are. The second is false: it raises at the first member that is a list (IndexError), a complex number (ValueError) or of type 0x23 (AttributeError), or whose header ends too early (ValueError), and for a group without flash bytes (AttributeError); these are the only errors. Assigning bytes to the data of a group raises the same errors in the same cases.)", "quantifier": "for every byte string (assigning: non-empty, below 65536 bytes, with a version function that gives bytes), every group, every version and program test function, and every name function with which the default entry can be made", "why_tests_cant": "All byte strings: every type byte, cut header, name length and damaged data length in every position of the group.", "anchors": ["tivars/types/group.py: TIGroup.ungroup", "tivars/var.py: TIEntry.load_data_section", "tivars/var.py: SizedEntry.load_data_section", "tivars/types/matrix.py: TIMatrix.load_data_section"]}
{"id": "C166", "title": "Opening and saving any flash file", "statement": "Any bytes that open as a flash header without a warning about their structure (size, checksum, further data, further headers) are exactly one header with its data and its checksum or none, and saving the header gives the same bytes. (The first half is true. The second is true exactly if the name length is 8, the eighth byte of the name is not NUL, the 23 bytes after it are, and the 23 bytes after the first device are; a file that opens without any warning at all can be saved as different bytes. A file opens exactly if it has at least 78 bytes, whatever they are; otherwise OSError is raised.)", "quantifier": "for every byte string and every flash class (saving: opened into a fresh object)", "why_tests_cant": "All byte strings; damaged sizes, half checksums, names and device lists of every length.", "anchors": ["tivars/flash.py: TIFlashHeader.open", "tivars/flash.py: TIFlashHeader.load_bytes", "tivars/flash.py: TIFlashHeader.next_header_length", "tivars/flash.py: TIFlashHeader.bytes"]}
{"id": "C167", "title": "Reading and writing any flash record", "statement": "A line that is read as a flash block without a warning is written again as the same line. (False: its first byte, the spelling of its count and anything after its checksum are lost. It is written as a colon, the count in two upper-case digits and the rest of the line as it was, so it is the same line exactly if it already had this form; reading what was written gives the same block without a warning. A line with a negative count takes everything after its type as data, and warns. The only errors on any line are ValueError and UnicodeDecodeError.)", "quantifier": "for every byte string", "why_tests_cant": "All byte strings: counts with signs, blanks or non-ASCII digits, lower-case digits, any damage.", "anchors": ["tivars/flash.py: TIFlashBlock.load_bytes", "tivars/flash.py: TIFlashBlock.Raw.bytes", "tivars/flash.py: TIFlashBlock.Raw.checksum"]}
{"id": "C168", "title": "Reading and writing the blocks of any flash header", "statement": "If the data of a flash header with the binary flag $01 are read as blocks without a warning, assigning the blocks back gives the same data. (False: lines not in the usual form are rewritten. The data are cut into lines without CR LF inside whose joining by CR LF is the data again, one block per line; the blocks are written as lines each of which gives its block again; the data so written read as the same blocks without a warning; and they are the same data exactly if every line is a colon, a count of two upper-case digits and exactly the digits it announces. Apart from an error on the flag itself the only errors of reading are ValueError and UnicodeDecodeError, and only with the flag $01.)", "quantifier": "for every flash header, with any data", "why_tests_cant": "All byte strings as data: any number of lines, CR or LF alone, empty lines, any damage.", "anchors": ["tivars/flash.py: FlashData.get", "tivars/flash.py: FlashData.set", "tivars/flash.py: TIFlashBlock.load_bytes"]}
