# Design

Target: TI-Toolkit/tivars_lib_py, read as text in /repo (nothing was executed).
Prover: Rocq/Coq 8.16.1, standard library only, no axioms.
168 properties, 678 theorems, 205 examples.

## 1. Shape of the development

| file group | contents |
|---|---|
| `PyBase.v` | the Python primitives the library relies on: byte strings (`list Z`), slices, slice assignment, `int.to_bytes`/`from_bytes`, `ljust`/`rstrip`, decimal/hex printing and parsing, exceptions and warnings as values |
| `M_*.v` | the model, no proofs; each definition cites file and lines in /repo |
| `S_*.v` | small specifications, written without the model's helpers |
| `L_*.v` | lemmas |
| `P_*.v` | the property theorems, each followed by `Print Assumptions`, and concrete `Example`s meeting the hypotheses |

Conventions of the model

* a Python `int` is `Z`; a byte is a `Z` in 0..255; `bytes`, `bytearray` are `list Z` (predicate `wf_bytes`); a `str` is a list of code points (`list Z`).
* an operation that may raise returns `result A` (`Ok a` or `Err e`, `e` naming the Python exception class); warnings are returned as a list of warning kinds, because the PIL plugin and `TIProgram.coerce` turn warnings into errors, and because "warns exactly when" is part of several properties.
* an operation on an object returns the new object; where the property is about a half-finished update, the object at the time of the exception is returned too.
* loops are structural recursion on the list they consume, or recursion on fuel that is proved sufficient.
* things outside the checkout (token sheet, OS-version order, NFC, the version function of an entry class) are variables of closed sections, so theorems quantify over them and state what they assume.

## 2. What is modelled and what is not

Modelled: data.py, flags.py, numeric.py (converters, sections, views, loader dispatch); models/model.py; var.py (headers, entries, var files, archive, extension and model checks, OS requirements and support); types/real.py, complex.py, list.py, matrix.py, tokenized.py, group.py, picture.py, gdb.py (also their dictionaries and the packaged defaults), settings.py; floats, integers and complex numbers loaded into numbers and taken from them; Python's Fraction(text) on ASCII texts; the texts of numbers, lists and matrices (plain and in the format "t") and their readers; versions, loading and construction of entries; format strings for dumps and numbered lines; PIL/common.py (encoder, decoder, opening); token.py, trie.py, tokenizer/*.py; flash.py and types/flash.py (headers, blocks, dates, revisions, data).

Not modelled:

* the token sheets: `tivars/tokens` is a git submodule absent from the checkout, so Token contents, OS versions and their order are parameters;
* models/versions.py, types/appvar.py beyond its class attributes and OS, PIL/__init__.py and the registration of the plugins with PIL, types/__init__.py, the schema files, the documentation builder;
* the flash constructor called with neither data nor init;
* `unicodedata` NFC normalisation (a parameter), JSON text, the file system, PIL and numpy, Python's reflection machinery (descriptor protocol, `__set_name__`, metaclass registration), threads.

## 3. Properties

Status convention. A property of the first list that turned out false is not dropped. Its statement in `properties.jsonl` keeps the original claim and adds the verdict in parentheses: the condition under which it was proved and where it is false. `proved` in MANIFEST.json means that the statement *including its verdict* is established: the condition by a theorem for all inputs, the falsity by a theorem ending in `_refuted`. It does not mean that the code has the property a reader would expect from the title; the last column below says so in each case. Where a verdict is "false" on a witness only, the claim is known to be unconditionally false, but the exact set of bad inputs is not characterised unless a theorem ending in `_iff` or the note says so.

Theorem names below omit the property prefix (`section_width` of C01 is `C01_section_width`).

| id | property | model | theorems | proof | verdict |
|---|---|---|---|---|---|
| C01 | Fixed-width sections always hold exactly their declared width | M_Data | P_Data: `section_width`, `section_raise`, `spec_deterministic` | list algebra on slices; every width, slice and value | as stated |
| C02 | Writing through a view changes only the bytes the view covers | M_Data | P_Data: `view_frame`, `view_never_spills`, `views_commute` | list algebra on slices; every width, slice and value | as stated |
| C03 | Bit fields are independent | M_Data | P_Data: `bits_set`, `bits_get_after_set`, `written_unique` | exhaustive over byte x field bounds by `vm_compute`, lifted with `forallb_forall` | as stated |
| C04 | Little-endian integer fields are exact or refuse | M_Data, PyBase | P_Data: `integer_exact`, `integer_refuses`, `integer_get_injective`, `default_width`, `boolean` | induction on the little-endian digits | as stated |
| C05 | Text sections round-trip latin-1 text | M_Data | P_Data: `text_roundtrip`, `text_rejects_non_latin1`, `text_cut`, `text_trailing_nul_refuted` | list induction | The no-trailing-NUL condition is shown necessary. |
| C06 | Flag fields: set/get/|=/in agree | M_Flags | P_Data: `flags_byte_roundtrip`, `flags_update`, `flags_contains`, `flags_wide`, `flags_width_refuted` | induction on the dictionary; bytes exhaustively | Round trip, update and membership proved for one byte; the width claim for multi-byte data is false and refuted, its exact law proved. |
| C07 | BCD fields are exact decimal | M_Numeric | P_Data: `bcd_exact`, `bcd_refuses`, `bcd_rewrite` | digit induction | as stated |
| C08 | Nibble-packed components of a radical do not overlap | M_Numeric, M_Real | P_Real: `nibble_fields`, `sign_field`, `nibble_get`, `wide_refuted` | nibble arithmetic with `lia`; witness by computation | Values that fit; wider values are mangled (refuted). |
| C09 | Headers are 53 bytes and lossless | M_Models, M_Var | P_Models: `header_first_53`, `header_restores`, `constructed_wf`, `loaded_wf`, `header_stream_refuted`, `constructed_fields`, `constructed_defaults` | list algebra on the 53-byte layout; finite check over the model table | The stream-position claim is false and refuted. |
| C10 | A header built for a model targets that model | M_Models, M_Var | P_Models: `model_header_targets_model`, `targets_exact`, `targets_nonempty` | list algebra on the 53-byte layout; finite check over the model table | as stated |
| C11 | Entry serialise-then-parse is the identity | M_Var | P_Var: `entry_roundtrip`, `entry_roundtrip_generic`, `entry_layout`, `ambiguous_loses_flash`, `roundtrip_refuted` | codec round trip on streams with positions, induction on the entries; refutations by computation | Exact condition: the round trip holds iff the version and archive bytes do not spell the data length; a refuting witness for the unconditional claim is given. |
| C12 | Entry parse-then-serialise is the identity on well-formed bytes | M_Var | P_Var: `entry_bytes_roundtrip`, `complex_refuted` | codec round trip on streams with positions, induction on the entries; refutations by computation | Needs the type byte and payload to agree for complex numbers and lists; refuted without. |
| C13 | Reported entry length equals serialised length | M_Var | P_Var: `entry_len`, `next_entry_length`, `peek`, `peek_short_refuted` | codec round trip on streams with positions, induction on the entries; refutations by computation | On fewer than four remaining bytes the peek moves the stream back (refuted). |
| C14 | Var files with any number of entries round-trip | M_Var | P_Var: `var_bytes`, `var_roundtrip` | codec round trip on streams with positions, induction on the entries; refutations by computation | as stated |
| C15 | Checksum detects corruption | M_Var | P_Var: `checksum_value`, `warning_iff`, `single_byte`, `single_byte_refuted` | checksum arithmetic mod 65536; fuel proved sufficient and irrelevant | Single-byte detection needs the altered entry to stay self-describing; refuted without (complex numbers). |
| C16 | Reported var length equals file size | M_Var | P_Var: `len_two_short`, `len_refuted` | checksum arithmetic mod 65536; fuel proved sufficient and irrelevant | The claim is false; proved: always two short. |
| C17 | add_entry keeps the entry it is given | M_Var | P_Var: `add_entry_kept`, `empty_replaced`, `add_entry_refuted` | checksum arithmetic mod 65536; fuel proved sufficient and irrelevant | True for entries with data; false and refuted for empty ones. |
| C18 | Loading arbitrary bytes terminates | M_Var | P_Var: `loop_terminates`, `fuel_irrelevant`, `entry_count` | checksum arithmetic mod 65536; fuel proved sufficient and irrelevant | as stated |
| C19 | File extension lookup picks the newest supported key and never fails | M_Models, M_Var | P_Models: `listed_model`, `no_listed_model`, `unlisted_newer_model_raises`, `no_model`, `extension_refuted` | case analysis of the loader; list search | The never-fails part is refuted. |
| C20 | Loading a var that has a target model never fails on the model check | M_Models, M_Var | P_Models: `check_two_targets`, `check_one_target_raises`, `model_check_refuted` | case analysis of the loader; list search | The two-target case is proved; single-target headers raise (refuted). |
| C21 | Flashless entries can be constructed | M_Models, M_Var | P_Var: `flashless_refuted` | case analysis of the loader; list search | The claim is false for every argument. |
| C22 | Archiving toggles one byte | M_Models, M_Var | P_Var: `archive`, `unarchive`, `only_archive_byte`, `raises_iff` | case analysis of the loader; list search | as stated |
| C23 | Sized entries keep their length word in sync | M_Data, M_Var | P_Var: `length_in_sync`, `image_refuted`, `graphed_equation_refuted` | invariant over sequences of edits | True for every sized class except TIImage and TIGraphedEquation, for which it is refuted. |
| C24 | Assigning calc_data keeps the entry editable | M_Data, M_Var | P_Var: `calc_data_refuted`, `data_uneditable` | invariant over sequences of edits | The claim is false for every entry and view. |
| C25 | TIReal.load_string stores the decimal value exactly | M_Real | P_Real: `exact`, `zero`, `leading_zero_refuted` | exact rational value of a literal against stored mantissa and exponent | Literals without superfluous leading zeros; with them the claim is false (refuted). |
| C26 | Long literals are truncated toward zero to 14 significant digits | M_Real | P_Real: `truncates`, `unique` | exact rational value of a literal against stored mantissa and exponent | as stated |
| C27 | TIReal string() round-trips | M_Real | P_Real: `string_roundtrip_iff`, `zero`, `string_roundtrip_refuted` | exact rational value of a literal against stored mantissa and exponent | The exact condition is proved; the unconditional claim is refuted. |
| C28 | Rejected numbers leave the entry unchanged | M_Real | P_Real: `atomic_refuted`, `overflow_leaves_mantissa` | exact rational value of a literal against stored mantissa and exponent | False; what a refused load leaves behind is proved exactly. |
| C29 | Negation flips only the sign | M_Real | P_Real: `negation` | exact rational value of a literal against stored mantissa and exponent | as stated |
| C30 | Fractions survive the 14-digit representation | M_Real | P_Real: `fraction_roundtrip`, `large_refuted` | continued fractions: invariant and best-approximation property of `limit_denominator` | Proved within the 14-digit range; refuted beyond it. |
| C31 | Radical loading preserves the value and normalises | M_Real | P_Real: `radical_value`, `radical_refused` | case analysis of the grammar and the normalisation, `lia`/`nia` | Proved for components below 1000 and a nonzero leading term; the others are proved to be refused. |
| C32 | Out-of-range radical components are rejected | M_Real | P_Real: `out_of_range_refuted`, `right_refuses`, `left_refuses`, `left_mangles` | case analysis of the grammar and the normalisation, `lia`/`nia` | Left-aligned fields accept 1000..9999 (refuted); right-aligned fields refuse them. |
| C33 | Complex parts are independent and typed by the imaginary part | M_Complex, M_Real | P_Complex: `assign_real`, `assign_imag`, `order` | frame lemmas of C02/C03 and the text theorems of the reals | as stated |
| C34 | Assigning a part does not modify the assigned number | M_Complex, M_Real | P_Complex: `operand_refuted`, `operand_value` | frame lemmas of C02/C03 and the text theorems of the reals | The claim is false (the operand's kind tag is overwritten); proved: nothing else of the operand changes. |
| C35 | Complex version depends on the kinds of the parts, not their signs | M_Complex, M_Real | P_Complex: `sign_refuted`, `version`, `version_of`, `version_of_empty` | frame lemmas of C02/C03 and the text theorems of the reals | False for negative or graphing parts (refuted); exact law given for all payloads. |
| C36 | Lists round-trip their elements | M_List | P_List: `roundtrip`, `limit`, `flashless_refuted`, `operand_refuted` | chunking lemmas, induction on the elements | Round trip proved for every real or complex list with fewer than 65536 elements stored with flash bytes; C36_limit for longer ones. C36_flashless_refuted: list() fails on every non-empty flashless list. C36_operand_refuted: a real reused as part of a complex number breaks the list. |
| C37 | Matrices round-trip in row-major order | M_List | P_List: `roundtrip`, `uneven`, `limit`, `no_columns_refuted`, `warning_refuted`, `size_warning` | chunking lemmas, induction on the elements | Round trip proved with the exact warnings; ragged rows and over-wide matrices refused. Refuted: a matrix with no columns loses its rows; the width check uses the old height and warns spuriously. |
| C38 | Lists and matrices of exact numbers carry a newer version | M_List | P_List: `version_refuted` | chunking lemmas, induction on the elements | The claim is false: C38_version_refuted proves the version is 0 for every payload of every list or matrix. |
| C39 | Any saved list can be loaded | M_List | P_List: `empty_refuted`, `save_load`, `generic_list_refuted`, `length_warning` | chunking lemmas, induction on the elements | The claim is false: C39_empty_refuted proves every empty list fails to load. C39_save_load proves every non-empty list saves and loads with its class and elements; C39_generic_list_refuted shows the one kind that TIList itself mis-reads. |
| C40 | Decoding is lossless up to a dropped tail | M_Tok | P_Tok: `prefix`, `tokens` | induction on the input and on the trie; sheet universally quantified | Also: each token is on the sheet or stands for bytes that are not, and decoding is silent iff all are on the sheet. |
| C41 | Decoding inverts token concatenation | M_Tok | P_Tok: `decode_concat`, `prefix_needed_refuted` | induction on the input and on the trie; sheet universally quantified | Prefix-freedom shown necessary (refuted without). |
| C42 | Trie matching is sound, complete and ordered | M_Tok | P_Tok: `sound_complete`, `longest_first` | induction on the input and on the trie; sheet universally quantified | as stated |
| C43 | Encoding consumes exactly the text | M_Tok | P_More, P_Tok: `thetas`, `cut`, `data`, `terminates`, `escape`, `empty_name_refuted`, `literal_bytes_refuted` | induction on the text with a stack invariant; a `cut` relation as specification | Soundness for every mode, termination, errors only ValueError, escaped bytes read back; refuted: an empty name loops for ever, a byte literal may encode to nothing. |
| C44 | The encoder's context stack is never exhausted | M_Tok | P_Tok: `runs`, `stack`, `never_exhausted` | induction on the text with a stack invariant; a `cut` relation as specification | as stated |
| C45 | Maximal and minimal munching | M_Tok | P_Tok: `max`, `string` | induction on the text with a stack invariant; a `cut` relation as specification | Exact: success and tokens characterised in both directions. |
| C46 | Name contexts end after 8 (programs) or 5 (lists) tokens | M_Tok | P_Tok: `program_bound`, `list_bound`, `limit_refuted`, `literal_refuted` | induction on the text with a stack invariant; a `cut` relation as specification | The claim is false (refuted: nine and six); proved: at most nine and six without byte literals; with byte literals there is no bound (refuted). |
| C47 | decode after encode returns the munched tokens | M_Tok | P_Tok: `decode_encode`, `literal_refuted` | induction on the text with a stack invariant; a `cut` relation as specification | Refuted with byte literals. |
| C48 | lines() partitions the program | M_Tok | P_Tok: `lines`, `join_iff`, `join_refuted` | induction on the text with a stack invariant; a `cut` relation as specification | Line count and contents proved; joining gives the tokens back iff no store arrow or quote occurs (refuted otherwise). |
| C49 | Token version bytes are monotone and recognised | M_Tok, M_Var | P_Tok: `thresholds`, `monotone`, `clock`, `recognised`, `versions_refuted`, `clock_alignment_refuted` | case analysis; list search for the clock bytes | Thresholds exact and monotone; +0x20 iff clock bytes occur anywhere in the raw data (token alignment refuted); recognised but for 0x07 and 0x27 (refuted). |
| C50 | Version follows the data | M_Tok, M_Var | P_Tok: `version_follows`, `empty_refuted` | case analysis; list search for the clock bytes | Proved for nonempty data; refuted for empty data. TIGraphedEquation (different length view) excluded. |
| C51 | Protecting a program only changes its type | M_Tok, M_Var | P_More, P_Tok: `assembly`, `protect`, `unprotect`, `inverse`, `asm_refuted`, `inverse_refuted` | case analysis; list search for the clock bytes | Proved for plain program objects and exact result; inverse for non-assembly data; on assembly-class objects both always raise (refuted). |
| C52 | Grouping then ungrouping returns the entries | M_Group | P_Group, P_More: `group_roundtrip`, `ungroup`, `regroup`, `empty`, `archived_warning`, `name_warning`, `vat`, `load` | stream parsing induction; refutations for all members of a kind or by witness | all groupable kinds (reals, tokenized, programs, appvars, groups, pictures, GDBs, short-named settings); also the inverse direction; version functions of the members abstract but assumed not to raise |
| C53 | Every entry kind can be grouped | M_Group | P_Group: `list_refuted`, `complex_refuted`, `graphed_refuted`, `flashless_refuted`, `matrix_refuted`, `two_matrices_refuted`, `settings_refuted` | stream parsing induction; refutations for all members of a kind or by witness | false: lists IndexError, complex ValueError, graphed equations and flashless entries AttributeError (all inputs); matrices and settings under their default names come back different (witnesses) |
| C54 | Monochrome pictures round-trip pixel for pixel | M_Pic | P_Pic: `load_array`, `pixels`, `bytes`, `layout`, `ragged`, `size_refuted` | finite checks over bytes and byte pairs, list induction over rows; `nia` for distances | every 63x96 array; 0/255 pixels come back exactly, others normalised; bytes to pixels to bytes; pixel layout; array dimensions are not checked (refuted part) |
| C55 | Palette pictures round-trip colours | M_Pic | P_More, P_Pic: `colours`, `nearest`, `first_nearest`, `bytes`, `bytes_unchanged`, `load_array`, `picture_bytes`, `odd_row_refuted` | finite checks over bytes and byte pairs, list induction over rows; `nia` for distances | all colours (unbounded ints): nearest palette colour, first among equals; every byte; whole 165x266 pictures both ways; odd rows lose their last pixel silently (refuted part) |
| C56 | RGB565 images are stable | M_Pic | P_Pic: `bytes`, `close`, `stable`, `load_array`, `image_bytes` | finite checks over bytes and byte pairs, list induction over rows; `nia` for distances | all 65536 byte pairs, all in-range colours, whole 83x133 images; padding bytes cleared |
| C57 | Colour images keep their length word | M_Pic | P_Pic: `length_refuted` | finite checks over bytes and byte pairs, list induction over rows; `nia` for distances | false for every image: the length word is one short after load_array, and loading warns |
| C58 | Picture names round-trip | M_Pic | P_Pic: `image`, `image0_refuted`, `image10_refuted`, `other` | finite checks over bytes and byte pairs, list induction over rows; `nia` for distances | Image1-Image9 proved; false for Image0 (rejected) and the tenth image (reads Image10); Pic names use the token Name converter, whose tokens are not in the pinned tree |
| C59 | GDB equation slots are independent | M_Gdb, M_Var | P_Gdb: `get`, `get_out`, `set`, `independent`, `pair_refuted`, `fresh_refuted`, `plain`, `plain_refuted` | stream splitting, field table checked by computation | all well-formed GDBs of the four modes; false for style/colour of the second equation of a pair, for newly made equations and for plain TIEquation objects (refuted parts) |
| C60 | Colour stripping yields the monochrome GDB | M_Gdb, M_Var | P_Gdb: `mono`, `contents`, `generic_class`, `generic_refuted` | stream splitting, field table checked by computation | payload, equations and parameters proved; the length words are stale so the result always warns; false for monochrome GDBs loaded generically (refuted part) |
| C61 | Graph settings are independent fields that tile the payload | M_Gdb, M_Var | P_Gdb: `inside`, `disjoint`, `names`, `set`, `read_back`, `tiles` | stream splitting, field table checked by computation | all fields of all GDB and settings classes |
| C62 | Settings dictionaries round-trip | M_Gdb, M_Var | P_Gdb: `refuted`, `inert` | stream splitting, field table checked by computation | false for every settings dictionary; proved refused and inert |
| C63 | Flash headers round-trip | M_Flash | P_Flash: `load`, `round_trip_iff`, `restored`, `constructed_refuted`, `length`, `loads_iff` | codec round trip; hexadecimal digit induction | exact condition proved (eight-byte name, one device, right length byte and checksum); exact warnings and exact set of loadable inputs; false for every constructed header |
| C64 | Intel-HEX blocks are well-formed | M_Flash | P_Flash: `new`, `empty_refuted`, `write`, `sum`, `parse`, `detects`, `strict_refuted` | codec round trip; hexadecimal digit induction | proved for payloads up to 255 bytes; also: any single payload byte changed is noticed; first character and text after the check byte are ignored; a block without data cannot be written |
| C65 | Flash dates and revisions round-trip | M_Flash | P_Flash: `date`, `date_any`, `date_refuted`, `revision`, `revision_any`, `revision_refuses`, `revision_refuted`, `devices` | codec round trip; hexadecimal digit induction | proved in range, with the exact behaviour out of range; years above 9999 carry into the month, revision 5.01 reads back as 5.1 |
| C66 | Peeking at the next flash header does not move the stream | M_Flash | P_Flash: `next_length`, `next_image`, `truncated_refuted` | codec round trip; hexadecimal digit induction | proved wherever a whole header follows; false when the stream ends inside the size word |
| C67 | Loader dispatch | M_Data | P_Models: `first_implemented_loader`, `no_loader`, `cases`, `register_new`, `register_replace` | list search | as stated |
| C68 | Feature sets grow along the model families | M_Models | P_Models: `has_table`, `families_grow`, `82AEP_drops_apps_only` | finite check | as stated |
| C69 | Negation negates exact numbers | M_Real | P_Real: `negated_radical_unchanged`, `negation_refuted` | case analysis of the grammar and the normalisation, `lia`/`nia` | False for radicals: negation leaves the value unchanged. |
| C70 | Multiples of pi load their coefficient | M_Real | P_Real: `pi_literal`, `bare_pi_refuted` | reduction to the real-number theorems | True for every literal; the bare constant loads as zero (refuted). |
| C71 | fraction() is a closest fraction | M_Real | P_Real: `limit_denominator_closest` | continued fractions: invariant and best-approximation property of `limit_denominator` | as stated |
| C72 | Decimals load exactly | M_Real | P_Real: `decimal_roundtrip` | exact rational value of a literal against stored mantissa and exponent | as stated |
| C73 | Every radical expression in range loads | M_Real | P_Real: `accepted_iff`, `refused`, `valid_radicals_refuted` | case analysis of the grammar and the normalisation, `lia`/`nia` | False; the exact set of accepted expressions is proved, and that a refusal is a ValueError leaving the number alone. |
| C74 | Multiples of pi survive their own text | M_Real | P_Real: `pi_string_roundtrip_iff`, `pi_zero_refuted` | reduction to the real-number theorems | Exact condition proved; zero does not read back (refuted). |
| C75 | Text of a complex number loads both parts | M_Complex, M_Real | P_Complex: `text`, `minus_unit_refuted` | frame lemmas of C02/C03 and the text theorems of the reals | Literals whose exponent carries no '+' or '-'; bare unit behind a minus is refuted. |
| C76 | Complex text is never silently misread | M_Complex, M_Real | P_Complex: `exponent_refuted`, `trailing_ignored`, `exponent` | frame lemmas of C02/C03 and the text theorems of the reals | False; proved in general: a third summand never changes what is loaded, and digits behind a signed exponent mark load as the imaginary part. |
| C77 | Complex numbers survive their own text | M_Complex, M_Real | P_Complex: `string_roundtrip_iff`, `string_roundtrip_refuted` | frame lemmas of C02/C03 and the text theorems of the reals | Exact condition proved for all pairs of decimals; the text always loads; refuted for 3-i. |
| C78 | Enumerated fields warn exactly for unknown values | M_Flags | P_Data: `enum`, `enum_refuses` | case analysis | as stated |
| C79 | Reading a field off missing data raises ValueError | M_Data | P_Data: `short_read`, `passes`, `never_index_error` | case analysis | as stated |
| C80 | Tokens loaded into an entry are read back | M_Tok, M_Var | P_More, P_Tok: `quotes`, `tokens_roundtrip`, `string_tokens` | case analysis; list search for the clock bytes | as stated |
| C81 | Names are read back as their tokens | M_Tok, M_Var | P_Tok: `name_roundtrip` | case analysis; list search for the clock bytes | as stated |
| C82 | Constructing a colour GDB keeps its colours | M_Gdb, M_Var | P_Gdb: `overwrites`, `refuted` | stream splitting, field table checked by computation | false; proved exactly which two bytes change |
| C83 | GDB dictionaries show each parameter under its own name | M_Gdb, M_Var | P_Gdb: `names`, `fields`, `refuted` | stream splitting, field table checked by computation | false for vnMin of sequence GDBs; every other key proved |
| C84 | The GDB length word follows the equations | M_Gdb, M_Var | P_Gdb: `stale`, `refuted` | stream splitting, field table checked by computation | false for every assignment that changes the size |
| C85 | Intel flash data splits into its records | M_Flash | P_Flash: `blocks`, `binary`, `terminated_refuted` | codec round trip; hexadecimal digit induction | proved; data with a terminated last line always raises |
| C86 | Flash file extensions fall back to earlier models | M_Flash | P_Flash, P_More: `extension`, `fallback_refuted`, `table`, `default` | codec round trip; hexadecimal digit induction | false for every chronology; exact behaviour proved |
| C87 | The k-th header of a flash file is found | M_Flash | P_Flash: `select`, `open` | codec round trip; hexadecimal digit induction | as stated |
| C88 | The data of a flash header can be assigned | M_Flash | P_Flash, P_More: `assign_refuted`, `error` | codec round trip; hexadecimal digit induction | false for every header and value |
| C89 | A flash header object knows whether it has a checksum | M_Flash | P_Flash: `sticky_refuted`, `init_refuted`, `fresh` | codec round trip; hexadecimal digit induction | proved for fresh objects; false for reused objects and through the constructor |
| C90 | A complex text may have a real part in any notation | M_Complex, M_Real | P_Kinds: `first_kind`, `none`, `fraction`, `radical`, `pi`, `imaginary_refuted`, `imaginary`, `zero_refuted` | induction on the table of types; a character foreign to a notation is followed through its reader | proved for the real part; false for the imaginary part and for a zero denominator (exact behaviour proved) |
| C91 | One entry is found in a file with several | M_File, M_Var | P_File: `select`, `open`, `extension`, `mono_any_name`, `short_file`, `multiple_refuted`, `past_end_refuted` | stream positions followed over the list of entry images; injectivity of the entry image; case analysis over the classes | selection and extension test proved; the report of several entries is false, exact condition proved; past-the-end offsets refuted |
| C92 | Equality is equality of contents, and copies are equal | M_File, M_Var | P_File: `entry`, `answers`, `var`, `header_refuted`, `header`, `header_copy`, `copy_refuted` | stream positions followed over the list of entry images; injectivity of the entry image; case analysis over the classes | equality proved for entries, headers, vars; copies exact for content-independent classes, proved for complex, refuted for uncoerced entries and for every assembly program |
| C93 | header | entries makes the var with that header and those entries | M_File, M_Var | P_File: `join`, `no_entries`, `unknown_magic`, `empty_refuted` | stream positions followed over the list of entry images; injectivity of the entry image; case analysis over the classes | proved, with the exact exceptions; false for entries without data |
| C94 | A saved file gets the var's extension when none is given | M_File, M_Var | P_File: `default`, `named`, `dotted`, `directory_refuted`, `reopens` | stream positions followed over the list of entry images; injectivity of the entry image; case analysis over the classes | proved with the exact test; false for directories with a dot |
| C95 | List names are capitalised, measured and tokenised | M_Name, M_Tok | P_Name: `idlist_dead`, `idlist_refuted`, `roundtrip`, `unchecked`, `length`, `prefix_refuted` | characters followed through upper-casing and replacement; soundness and completeness of the matcher against a declarative form | proved except for the two parts refuted: IDList is never written, the 5D prefix is not written back |
| C96 | Equation and string names are put into token form | M_Name, M_Tok | P_Name: `braces`, `sequence`, `other`, `idempotent`, `string`, `capital` | characters followed through upper-casing and replacement; soundness and completeness of the matcher against a declarative form | proved; str.capitalize is modelled for ASCII |
| C97 | The OS needed by a real number follows from its kind | M_Os | P_Os: `positive`, `marked_refuted`, `supported`, `sign_refuted` | case analysis on first bytes; induction over elements and entries; witnesses on a concrete version order | exact condition proved; claim refuted for every number with the sign or graph bit |
| C98 | The OS needed by a complex number follows from its parts | M_Os | P_Os: `plain`, `succeeds_iff`, `negative_refuted`, `exact_refuted`, `supported` | case analysis on first bytes; induction over elements and entries; witnesses on a concrete version order | success characterised; refuted for every negative or exact part |
| C99 | A list or matrix needs what its elements need | M_Os | P_Os: `real`, `complex_refuted`, `supported`, `exact_refuted` | case analysis on first bytes; induction over elements and entries; witnesses on a concrete version order | maximum proved for real lists and matrices; exact arithmetic never asked for (refuted) |
| C100 | A var is supported exactly if its header and all entries are | M_Os | P_Os: `supported_iff`, `default_model`, `save`, `save_refuted`, `save_complex_refuted`, `entries_refuted`, `equal_refuted` | case analysis on first bytes; induction over elements and entries; witnesses on a concrete version order | equivalence proved with the OS condition; three refutations |
| C101 | The text of an equation in a GDB is its tokens | M_Os, M_Tok, M_Gdb, M_Group | P_Os: `empty`, `text_refuted`, `min_os`, `reload_refuted` | declarative token parser; induction on the length of group data, which shrinks with each level | OS proved; text refuted for every non-empty equation under 256 bytes |
| C102 | Groups, GDBs and tokenised entries need what their parts need | M_Os, M_Tok, M_Gdb, M_Group | P_Os: `depth`, `group`, `max`, `gdb`, `gdb_given`, `tokens`, `asm`, `fixed` | declarative token parser; induction on the length of group data, which shrinks with each level | proved; OS versions are abstract with a total preorder |
| C103 | The text of a radical loads again as the same number | M_Text, M_Real | P_Text: `reload_iff`, `reload_value`, `normal`, `stable`, `long_reload`, `zero_refuted`, `sum_refuted` | the printed text is the written form of a radical (grammar of S_Real), to which the load theorem of C31/C73 applies | equivalence proved; two refutations |
| C104 | The text of a fraction, or of a fraction of pi, loads again as the same fraction | M_Text, M_Real | P_Text: `fraction_reload`, `pi_reload`, `pi_integer_refuted` | error bounds for multiplying and dividing by the stored value of pi; uniqueness of the closest fraction | proved with the stated bounds; integer multiples of pi refuted in general; the hypothesis on Fraction(text) is met by the modelled Fraction (C144) |
| C105 | The text of a real list loads again as the list | M_Text, M_List | P_ListText: `pieces`, `list`, `decimal`, `fraction`, `pi`, `pi_fraction`, `radical`, `exact`, `empty_refuted`, `kind_refuted` | induction over elements and rows; the pieces of a printed text are the texts of its elements; first accepting kind in registration order; external Fraction(text) specified by two assumptions, met by the modelled Fraction (C144) | proved for each element kind under its condition; empty list and kind changes refuted; the hypotheses on Fraction(text) are met by the modelled Fraction (C144) |
| C106 | The text of a matrix loads again as the matrix | M_Text, M_List | P_ListText: `pieces`, `matrix`, `exact`, `empty_refuted` | induction over elements and rows; the pieces of a printed text are the texts of its elements; first accepting kind in registration order; external Fraction(text) specified by two assumptions, met by the modelled Fraction (C144) | proved like C105; empty matrix refuted |
| C107 | Smart tokenisation depends only on the tokens before | M_Tok | P_Smart: `smart`, `plain`, `string`, `unique` | simulation between the stack of encoder states and the place in the text (S_Smart); induction over the fuel of the loop | equivalence proved, and determinism of the cut |
| C108 | The text of a complex number, reloaded | M_CText, M_Text, M_Complex | P_CText: `pieces_iff`, `reload`, `decimal_part`, `fraction_part`, `pi_part`, `pi_fraction_part`, `radical_part`, `fraction_iff`, `two_terms`, `unit_fraction_refuted`, `minus_one_refuted`, `whole_imaginary_refuted`, `split_radical_refuted` | exact table of the pieces of a printed text, per kind; then reload of each piece by the theorems on real texts (C103, C104) | equivalence for the pieces and for pairs of fractions; failing cases refuted with witnesses; Fraction(text) specified by two assumptions, met by the modelled Fraction (C144) |
| C109 | The dictionary of a graphed equation, reloaded | M_GdbDict, M_Gdb, M_Flags | P_GdbDict: `equation`, `identity`, `shown_names`, `accepted_names`, `mode` | dictionary of one equation computed in general; flag bytes by a check of all 256; induction over the equations | result given exactly for every style and colour; the plain claim is false |
| C110 | The dictionary of a colour GDB, reloaded | M_GdbDict, M_Gdb, M_Flags | P_GdbDict: `reload`, `identity`, `loss_refuted` | the payload is followed through each step of load_dict (clear, mode, formats, numbers, equations, class change, colours); equality by injectivity of the layout | exact result and exact condition for equality; the plain claim is refuted. TIReal(value), its number and the token text are parameters; C142 puts the modelled numbers in their place; the hypothesis on the texts (no warnings) holds of the real text functions for empty equations only, C145 covers the others |
| C111 | The dictionary of a monochrome GDB | M_GdbDict, M_Gdb, M_Flags | P_GdbDict: `uncoloured`, `mono` | dictionary of one equation computed in general; flag bytes by a check of all 256; induction over the equations | fails for every monochrome GDB; the hypothesis on the texts (no warnings) holds of the real text functions for empty equations only, C145 covers the others |
| C112 | The dictionary of a sequence GDB | M_GdbDict, M_Gdb, M_Flags | P_GdbDict: `sequence` | the payload is followed through each step of load_dict (clear, mode, formats, numbers, equations, class change, colours); equality by injectivity of the layout | fails for every named plot type; the others are covered by C110; the hypothesis on the texts (no warnings) holds of the real text functions for empty equations only, C145 covers the others |
| C113 | The packaged defaults load | M_GdbDict, M_Gdb | P_GdbDict: `default`, `sequence`, `mono`, `general`, `general_param` | defaults transcribed from the JSON files and evaluated for an arbitrary object, after a lemma that only the values in them matter; induction over the lists for unknown names | true of three classes, false of the others. The readings of the numbers are a hypothesis, met by the modelled reader (C142) |
| C114 | Unknown names in a GDB dictionary | M_GdbDict, M_Gdb | P_GdbDict: `formats`, `window`, `equations`, `equation_names`, `missing_mode` | defaults transcribed from the JSON files and evaluated for an arbitrary object, after a lemma that only the values in them matter; induction over the lists for unknown names | for window settings: attribute access other than the nine-byte views is a parameter |
| C115 | Constructing an entry from another entry | M_Load, M_Var | P_Load: `constructed`, `given`, `identity_refuted` | the constructor is followed through blank entry, load and version; the bytes that equation() builds are loaded in general | exact condition proved, the plain claim is refuted |
| C116 | Computed versions are recognised ones | M_Load, M_Tok, M_Gdb, M_Group | P_Load: `recognised`, `gdb` | case analysis over the classes with range lemmas for each get_version; warning lists are tracked through every step of loading | the exceptions 7 and 0x27 are reached (example) |
| C117 | The version warning of tokenised entries | M_Load, M_Tok, M_Gdb, M_Group | P_Load: `version_warning` | case analysis over the classes with range lemmas for each get_version; warning lists are tracked through every step of loading | as stated |
| C118 | The equation inside a GDB | M_Load, M_Var | P_Load: `equation`, `immutable`, `warnings` | the constructor is followed through blank entry, load and version; the bytes that equation() builds are loaded in general | as stated |
| C119 | Typed texts of real numbers | M_TText, M_Text, M_Real | P_TText: `number`, `bars`, `calls`, `loads_refuted` | the characters of every text are bounded per kind; texts without slash differ from the plain text only by tildes and calls of sqrt, which every reader undoes | exact condition proved, the plain claim is refuted |
| C120 | Typed texts of lists | M_TText, M_Text, M_List | P_TText: `list`, `barred`, `exact`, `loads_refuted` | the pieces found by the readers are computed for texts of any length and read pairwise | exact condition proved, the plain claim is refuted; the hypotheses on Fraction(text) are met by the modelled Fraction (C144) |
| C121 | Typed texts of matrices | M_TText, M_Text, M_List | P_TText: `matrix`, `barred`, `exact`, `loads_refuted` | the pieces found by the readers are computed for texts of any length and read pairwise | exact condition proved, the plain claim is refuted; the hypotheses on Fraction(text) are met by the modelled Fraction (C144) |
| C122 | Typed texts of complex numbers | M_TText, M_CText, M_Complex | P_TText: `pieces`, `decimal`, `loads_refuted` | the pieces of the typed text are computed from those of the plain text; a tilde inside a piece is refused by the number reader | exact condition proved, the plain claim is refuted |
| C123 | Saving and opening monochrome pictures with PIL | M_Pil, M_Pic, M_Var, M_File | P_Pil: `mono`, `exact` | the entry that load_array leaves is computed for every array, and the file of that one entry is read back exactly, warnings included | as stated |
| C124 | Saving and opening colour pictures with PIL | M_Pil, M_Pic, M_Var, M_File | P_Pil: `colour` | the entry that load_array leaves is computed for every array, and the file of that one entry is read back exactly, warnings included | as stated |
| C125 | Saving and opening full-colour images with PIL | M_Pil, M_Pic, M_Var, M_File | P_Pil: `image`, `open_refuted` | the entry that load_array leaves is computed for every array, and the file of that one entry is read back exactly, warnings included | the claim is refuted for every image |
| C126 | Sizes and formats of PIL pictures | M_Pil | P_Pil: `count`, `size_refuted`, `format`, `unique`, `empty`, `pixels_refuted` | case analysis of the class found in the file; the false parts by computed witnesses | two of the four parts are refuted, with witnesses |
| C127 | Layout of hexadecimal dumps | M_Format | P_Format: `layout`, `length` | declarative shape of format strings, equivalent to the matcher; groups characterised by where separators are due, from either end; the length of a dump is strictly increasing in the length of the data | as stated |
| C128 | A dump determines the data | M_Format | P_Format: `injective` | declarative shape of format strings, equivalent to the matcher; groups characterised by where separators are due, from either end; the length of a dump is strictly increasing in the length of the data | as stated |
| C129 | Format strings of entries | M_Format | P_Format: `refused`, `failures`, `empty`, `unique` | declarative shape of format strings, equivalent to the matcher; groups characterised by where separators are due, from either end; the length of a dump is strictly increasing in the length of the data | as stated |
| C130 | Dumps of tokenized entries | M_Format | P_Format: `dump`, `numbered`, `dump_refuted` | the two matchers are run on an arbitrary format string of a dump; lines are recovered one by one; decoder, integer and decimal formatting are parameters | the claim is refuted; the exact condition is proved |
| C131 | Numbered lines | M_Format | P_Format: `lines`, `text`, `injective` | the two matchers are run on an arbitrary format string of a dump; lines are recovered one by one; decoder, integer and decimal formatting are parameters | as stated |
| C132 | Dumps of real numbers | M_Format | P_Format: `dump`, `t`, `dump_refuted` | the two matchers are run on an arbitrary format string of a dump; lines are recovered one by one; decoder, integer and decimal formatting are parameters | the claim is refuted; the exact condition is proved, given what format() of Decimal does on these strings (a hypothesis, met by a concrete function) |
| C133 | Format strings of texts | M_Format | P_Format: `text`, `numbered`, `newline`, `short_refuted` | backtracking matcher run on strings of the declared shape; the lazy part stops at the first character not followed by a word character | one exception is refuted by a witness |
| C134 | Texts of complex lists | M_CList, M_CText, M_List | P_CList: `pieces`, `list`, `decimal_iff`, `element`, `minus_one_refuted` | the text of the list is cut at its commas into the texts of its elements; each is followed through the search for a kind, starting from the blank element; the false part by showing that every successful load has read the imaginary piece as a decimal | exact condition for lists of decimals; elements with exact real parts one at a time |
| C135 | Texts of complex lists with exact imaginary parts | M_CList, M_CText, M_List | P_CList: `exact`, `fraction`, `list_refuted` | the text of the list is cut at its commas into the texts of its elements; each is followed through the search for a kind, starting from the blank element; the false part by showing that every successful load has read the imaginary piece as a decimal | refuted for every list with such an element |
| C136 | Loading floats | M_Float, M_Real | P_Float: `cut`, `unique`, `zero`, `special`, `refused`, `int`, `int_zero`, `int_long` | the exact decimal expansion of m * 2^e is related to it by cross multiplication; the text of the decimal is a literal, whose truncation is known (C25) | as stated |
| C137 | Floats of real numbers | M_Float, M_Real | P_Float: `nearest`, `back_iff`, `below`, `exact`, `whole`, `zero`, `back_refuted` | round-to-nearest of the float gives an error below a ninetieth of the fourteenth digit; comparisons by cross multiplication of powers of two and ten decide whether truncation, rounding or the integer part gives the number back | exact condition proved, the plain claim is refuted |
| C138 | Floats of fractions | M_Float, M_Real | P_Float: `nearest`, `back`, `zero` | round-to-nearest of the float gives an error below a ninetieth of the fourteenth digit; comparisons by cross multiplication of powers of two and ten decide whether truncation, rounding or the integer part gives the number back | Fraction(text) is a parameter with the hypothesis that it reads the text of the float, met by the modelled Fraction for every finite float (C144) |
| C139 | Complex numbers from Python | M_Float, M_Complex | P_Float: `parts`, `refused`, `part_refused`, `cut`, `back_iff`, `back_refuted` | the two parts are loaded by C136 and assigned as in C33; the exact condition from C137 | exact condition proved, the plain claim is refuted |
| C140 | Integers of real numbers | M_Float, M_Real | P_Float: `cut`, `zero`, `whole_iff`, `small`, `whole_refuted` | round-to-nearest of the float gives an error below a ninetieth of the fourteenth digit; comparisons by cross multiplication of powers of two and ten decide whether truncation, rounding or the integer part gives the number back | exact condition proved, the plain claim is refuted |
| C141 | Numbers in dictionaries | M_Json, M_Float, M_Real | P_Json: `text`, `number`, `zero`, `whole`, `unique`, `number_refuted` | the shortest text of the float is a literal whose truncation is the stored number; short ones by the exact condition of C137; uniqueness because a float is within a ninetieth of the fourteenth digit | exact condition proved, the plain claim is refuted. str(float) is modelled as the shortest text of the stored decimal; that no other stored decimal has the float is proved |
| C142 | Numbers of a GDB through its dictionary | M_Json, M_GdbDict, M_Float | P_Json: `numbers`, `reload`, `defaults`, `default`, `reload_refuted` | the parameters of C110 and C113 replaced by the modelled reader, writer and warnings; the table of defaults evaluated | true under the exact condition of C141, the plain claim is refuted. The text of equations is a parameter; the hypothesis on the texts (no warnings) holds of the real text functions for empty equations only, C145 covers the others |
| C143 | Settings that must be whole | M_Json, M_Float | P_Json: `whole`, `xres`, `zero` | a float within a ninetieth of the fourteenth digit is whole exactly if the decimal is; exactness of whole decimals from C137 | the checks with int() and float() only; radicals and multiples of pi, which warn by their type, are not covered |
| C144 | Texts of fractions | M_Fraction, M_Text, M_Float | P_Fraction: `reads`, `long_ratio`, `long`, `long_point`, `refuses`, `foreign`, `shown`, `float`, `back`, `fraction_reload`, `pi_reload` | grammar of the texts as an inductive specification; scanner of digit groups shown to take exactly the longest run; every accepted text inverted to a form; str of a decimal shown to be a form of the same value | digits other than the ASCII ones are not modelled; texts longer than 4300 characters are covered by the refusals only |
| C145 | GDBs with equations through their dictionaries | M_GdbText, M_GdbDict, M_Os, M_Tok, M_Json | P_GdbText: `null`, `other`, `text`, `reload`, `uncoloured`, `unchanged`, `grows`, `refuted` | results shown to be the same when the warnings of the texts are dropped; encoding behind an escape by moving the encoder loop between stacks that differ in the counter of the smart state; trips by induction | _refuted: the default settings with Y1 = BA, two trips; json_name of the equation names, NFC in front of an escape and the name Y1 are hypotheses (the NFC one was checked for every code point with unicodedata) |
| C146 | Signs of radicals | M_RadDec, M_Text, M_Real | P_RadDec: `sign`, `zero_refuted` | the 1666 roots checked by computation, error bounds of the products, and a gap: squares of the terms that differ are at least 1 apart | the spec compares signed squares, integers only; the exception for 0/0 (InvalidOperation) is simplified to ZeroDivisionError |
| C147 | Copies of vars | M_Copy, M_File, M_Var | P_Copy: `copy`, `filename`, `copy_refuted`, `class_refuted`, `empty` | the round trip of C14 with a fresh var, and the equality of C92 | _refuted: a program for the TI-83 whose copy is saved under another name; a TIEntry whose copy is a TIProgram |
| C148 | Classes of the entries of a file | M_Var, M_Class, M_Copy | P_ClassOf: `entry`, `var`, `copy`, `mono_refuted` | a table of classes by type byte and data (S_ClassOf), checked against coerce for each registered type; induction over the entries of the file | _refuted: a monochrome graph database whose copy is coloured and unequal |
| C149 | Numbers in the dictionaries of settings | M_SetDict, M_Json, M_Gdb | P_SetDict: `number`, `whole`, `dict`, `determined`, `table_refuted` | the forms of single numbers (C141) are injective, by uniqueness of normal forms; induction over the consecutive fields | _refuted: tables starting at 0 and at 0.5 have equal dictionaries |
| C150 | Tokens survive their own text | M_Tok | P_TokText: `iff`, `apart`, `settled`, `entry`, `refuted`, `alias_refuted` | smart cuts (C107) and unique decoding (C41, C47); induction over the tokens | _refuted: A and B become AB; _alias_refuted: a second name of a token makes the second trip change the bytes |
| C151 | Flags are ordered by their value | M_FlagsOrd, M_Flags | P_FlagsOrd: `strict`, `equal`, `trichotomy`, `no_le`, `refuted`, `width_refuted` | the bits of flags read from bytes are those of the value, as many bytes as it needs; Python's protocol of rich comparisons is modelled | _refuted: <= raises TypeError for all flags (C151_no_le); _width_refuted: 8 and 16 cleared flags |
| C152 | Token containers | M_Sheet, M_Tok | P_Sheet: `built`, `bytes`, `names`, `tries`, `agree`, `clash_refuted` | dictionaries as association lists; induction over languages; tries by C42 | _clash_refuted: x and y swapped between two languages |
| C153 | Licenses and saved flash headers | M_License, M_Flash | P_License: `read`, `open`, `assign_refuted`, `save`, `save_fails`, `reopen` | slices of the whole data, and the images of C63 and C87 | _assign_refuted holds for every header and text: the slot is an immutable bytes object |
| C154 | Decimal values of radicals | M_RadDec | P_Root: `root`, `value`, `decimal` | the whole root with one guard digit, and the relative errors of rounding, sum and quotient | as stated |
| C155 | Numbers, lists and texts after saving and opening | M_Var, M_Real, M_List, M_Tok | P_End: `same_iff`, `real`, `real_list`, `complex_list`, `matrix`, `tokens`, `text`, `asm_refuted`, `complex_list_refuted` | C14 and C148 give equality of entries exactly for entries of their own class; combined with C25, C36, C37, C80 | as stated |
| C156 | Pictures and graph databases after saving and opening | M_Var, M_Pic, M_Gdb | P_EndPic: `picture_iff`, `mono`, `colour`, `image`, `reclassed`, `gdb`, `gdb_mono_refuted`, `rows_refuted` | C14 and C148 give the entries of the reopened file for all self-describing entries (C156_reclassed); combined with C54, C55, C56 and the layout of C59 | as stated |
| C157 | Complex numbers, exact numbers and settings after saving and opening | M_Var, M_Complex, M_Gdb | P_EndNum: `plain`, `complex_tag`, `complex`, `complex_text`, `setting`, `tag_refuted` | entries whose class is decided by the type byte are of their own class (C155_same_iff); combined with C33, C61 and C75 | as stated |
| C158 | An entry saved to a file of its own | M_File, M_Var | P_EndFile: `open`, `open_fails`, `copy`, `equal`, `name`, `empty_refuted` | export, var_bytes and save_name composed with entry_open (C91, also for failing loads), and C92; extensions of all classes are in lower case | as stated |
| C159 | A group saved, opened and ungrouped | M_Group, M_Var | P_EndGroup: `group`, `exact`, `same_file` | C52 composed with C157 for the group entry; equal raw contents give equal images and lengths, hence equal files (C14) | as stated |
| C160 | Exact numbers in graph parameters | M_GraphReal, M_Gdb, M_Var | P_GraphReal: `set`, `get`, `reread`, `foreign_refuted`, `unknown` | set_parameter is C61 after a converter that only warns; get_parameter runs the constructor symbolically for each real tag; the foreign tag by coerce | as stated |
| C161 | Files cut short | M_Var | P_Cut: `full`, `cut`, `longer_refuted` | the loop over the entries takes whole slices off the stream unless it warns; the checksum is two bytes only if the file goes on that far; lengths then contradict a cut | as stated |
| C162 | Opening and saving any file | M_Var | P_Resave: `entry`, `file`, `type_refuted` | without a warning the bytes of an entry have one of the two entry shapes, so loading is coercing the untyped entry with these bytes; coercion changes data only together with the type byte; the slices of the file come from C161_full | as stated |
| C163 | Opening a file settles it | M_Var | P_Settle: `settled`, `twice_refuted`, `grown_refuted` | coercion leaves a type byte that agrees with the data, by cases over the classes that the 256 type bytes lead to; then C14_var_roundtrip applies to what was opened | as stated |
| C164 | Errors on opening any bytes | M_Var | P_Raise: `entry`, `file`, `never_refuted` | seventeen bytes are always there after padding, so reading cannot fail and loading is coercing an untyped entry with the data section as payload; coercion is followed through all classes; loaded entries always have bytes, so the checksum cannot fail | as stated |
| C165 | Ungrouping any bytes | M_Group (ungroup), M_Var (load_data_section, coerce) | P_Ungroup: `ungroup`, `errors`, `assign`, `never_refuted` | the format is a separate function on bytes, next_member; one round of the loop equals it on all bytes, by computing the class of a blank entry for each of the 64 types; the rest shrinks in every round, so the loop ends | as stated |
| C166 | Opening and saving any flash file | M_Flash (h_open, h_load, h_bytes) | P_FlashAny: `opens`, `silent`, `save`, `same_refuted` | a file without these warnings is cut field by field into an image of S_Flash, using that short data give the size warning and half a checksum the checksum warning; C63 then says what loading and saving an image give | as stated |
| C167 | Reading and writing any flash record | M_Flash (block_load, block_bytes) | P_Line: `save`, `again`, `errors`, `same_refuted`, `negative` | without the warnings the data have the announced length and the checksum is the one computed, so the parts that are kept are one slice of the line; the count is below 256, so its two digits are read as the count again | as stated |
| C168 | Reading and writing the blocks of any flash header | M_Flash (fdata_get, fdata_set, split_lines, join_lines) | P_Lines: `data`, `again`, `same`, `errors`, `same_refuted` | induction on the length of the data for the cutting (joining the lines gives the data, no line contains CR LF) and for cutting joined lines; C167 for each line, whose writing contains no CR LF either | as stated |

## 4. Trusted base

* The Coq 8.16.1 kernel, including its virtual machine (`vm_compute` is used for finite checks).
* `Print Assumptions` was run on each of the 678 theorems of section 3 and on the 205 examples of the `P_*.v` files: every one is reported as `Closed under the global context`. No theorem uses an axiom. The verdict tool also lists seven constants of `Coq.ssr.ssrunder.Under_rel` (`Under_rel`, `Under_rel_from_rel`, `Under_relE`, `Over_rel`, `over_rel`, `over_rel_done`, `under_rel_done`): a module of the standard library sealed by a signature, loaded with ZArith and Lia. Its constants have definitions behind the seal and no theorem depends on them.
* The reading of /repo behind each definition. Nothing was executed, so a misreading of the source would not be noticed by the proofs. Two such slips were found and corrected (a pattern that dropped the first byte of an argument, in `header_new` and `complex_version`).
* The reading of Python semantics in `PyBase.v` (slices, integer parsing with underscores, `str.partition`, dictionary order and so on).

## 5. Seeded bugs

`seeded/LOG.jsonl` holds 679 entries. Each is one edit of a model definition in a scratch copy followed by a rebuild; two entries marked "not a harness run" record slips of the model itself. `theorems_failed` lists the theorems whose *proof script* no longer checks after the edit, including those that fail because a lemma they use was lost. A failing script is weaker evidence than a false statement: the control entry (an edit with no observable effect) also breaks scripts. The informative outcome is the opposite one, an edit after which nothing fails; each of those is marked as having survived and names the theorem added for it.

## 6. Findings

False claims are proved as `_refuted` theorems (section 3). In words, with further observations made while modelling:

Containers
* `len(var)` is two short (C16); a header loaded from a stream object raises (C09).
* An entry whose version and archive bytes spell its data length loses its flash bytes on loading; this includes every default empty entry (C11).
* Adding an empty entry to a var replaces it with an unnamed one (C17). Flashless entries cannot be constructed (C21).
* Assigning `calc_data` makes the entry read-only for later views (C24).
* Every header for TI-82, TI-82A, TI-84+T and TI-84+CSE has a single target, and the model check then raises TypeError (C20). Extension lookup raises KeyError for an unlisted newer model (C19).
* Truncated file: the length peek moves the stream back and the loader fabricates entries (C13, C18_example). Multi-entry flashless files give a spurious "conflicting meta length" warning per later entry.
* archive() works with the odd meta length 10 and raises TypeError exactly for 11 or at most 9 (C22).
* TIMonoPicture has the extension "" for TI-84+CSE, so it warns and uses the default, and its open accepts every file name (C91).
* `TIEntry.open` calls the second entry of a file "unexpected additional data" unless it has 11 or 13 bytes of data (C91). `copy.copy` of an assembly program raises UserWarning, and equality of vars ignores the header (C92). A target directory with a dot suppresses the extension on saving (C94).
* `ListName.set` looks for IDList after upper-casing, so the test never succeeds; `ListName.get` drops the 5D of a named list and `set` does not write it; list names are checked against nothing because the instance is not passed on (C95).
* `RealEntry.get_min_os` matches the first byte with the sign bit in it, so negative fractions are reported to need nothing (C97). `ComplexEntry.get_min_os` calls the model `TI_83PCE()`, a TypeError for every negative, radical or pi complex number; a var with a model and such a number cannot be saved (C98, C100). Lists never ask for exact arithmetic (C99); `TIVar.supported_by` asks entries only for their OS, and `save` uses `>` where `supported_by` uses `<` (C100).
* The data view of equations inside a GDB starts at the high byte of the length, so their texts start with `\x00` and grow by a byte with every reload (C101; through its own dictionary: C145).
* The zero radical and sums of two integers print texts that `load_string` refuses; the pattern `["-1", "√"]` in `reduce` can never match, so -1√2 prints a scalar that +1√2 does not (C103). Integer multiples of pi stored as pi fractions print without π and are refused (C104). `[]` loads as a list or matrix of one zero (C105, C106).
- The text of a complex number does not always load again (C108). `1/2 + i/3` is refused, because the 1 of `1i/3` is dropped and `/3` is left. `2 - i` loads with the imaginary part -0. A whole imaginary part of a fraction kind prints without `i` when the real part is 0, and loads as a real number. An imaginary part such as `(2√5+4√3)/7` loads as `2√5`, and `(-2√5+4√3)/7` loads as 1, both without a warning. A real part with two roots gives its second root to the imaginary part.
- A complex list with a fraction, radical or multiple of pi as an imaginary part cannot be read back from its own text, and `[3 - i]` comes back as another list (C134, C135).
- `TIReal(float)` cuts the exact binary value after 14 digits instead of rounding: `TIReal(0.3)` is 0.29999999999999, and `TIReal(x.float())` is not `x` for many x; `TIRealFraction(0.3)` is 0.3 (C136-C139).
- `json_number()` writes short numbers as floats, so that a GDB with Xscl = 0.3 is changed by going through its own dictionary; longer numbers are written as text and come back exactly (C141, C142).
- `int()` of a large whole number goes through a float and may be another number (C140).
- `sign` of a radical is taken from a 28-digit decimal value, which is not always 0 for a radical of value 0: √12 - 2√3 has sign -1 (C146). All other signs are right.
- A copy of a var has lost its name and its target model (C147).
- A monochrome graph database with equations loads as a coloured one, so a copy of its var is unequal (C148).
- The dictionary of table settings shows only the whole part of TblMin and DeltaTbl (C149).
- The text of a program does not determine its tokens: A followed by B is shown, and read back, like the token AB (C150).
- `<=` and `>=` between flags raise TypeError despite `total_ordering`, which leaves the methods of dict in place (C151).
- A name shared by two languages refers to the token of the last one when a container is indexed by it, even where English gives it to another token (C152).
- `TILicense.license` cannot be assigned: TypeError always (C153). `TIFlashHeader.save` empties the file before making the bytes.
- A list of complex numbers whose first real part carries the tag of a real number (complex numbers built from raw bytes do) comes back from a file as a list of real numbers (C155_complex_list_refuted).
- A monochrome graph database saved in a file never comes back as one: every well-formed one is longer than the 61 bytes that the class choice takes as the sign of colours (C156_gdb_mono_refuted).
- A monochrome picture given 62 rows is saved silently and comes back as a colour picture whose array() raises IndexError (C156_rows_refuted).
- A complex number whose type byte differs from the tag of its imaginary part is written as it is; on opening, the type byte is replaced before the checksum is compared, so the file is reported as corrupt (C157_tag_refuted).
- An app variable without data, saved and opened again, has lost its name: the file holds a fresh entry instead (C158_empty_refuted).
- A graph parameter (such as `Xmin`) whose first byte carries the tag of another type, say 4, reads as an entry of that type, here a string, since the tag is looked up among all types (C160_foreign_refuted).
- Anything after the checksum of a var file is ignored without a warning (C161_longer_refuted); files cut short are always noticed (C161_cut).
- Opening a file can change the type byte of an entry without any warning, so that saving it gives other bytes (C162_type_refuted); that is the only way a file that opens without a structural warning can change (C162_file).
- Opening and saving need not settle after one round: an imaginary part of type 0x23 turns a complex number into a graphed equation and that, on the next opening, into an equation (C163_twice_refuted); an empty graphed equation gains a byte on opening (C163_grown_refuted).
- A file with a list entry of fewer than three data bytes or a complex number of fewer than ten cannot be opened at all: IndexError or ValueError (C164_file, C164_example). Nothing else in a file raises.
- Ungrouping raises on any group that contains a list, a complex number or a type 0x23 (C165_ungroup, C165_never_refuted), because it coerces the member while it is still empty; a matrix member loses eight ninths of its elements' bytes to the next member.
- A flash file whose name has not exactly eight bytes, or that lists more than one device, opens without any warning and is saved as a different file (C166_save, C166_same_refuted).
- A flash record need not start with a colon, its count may have a sign or a blank, and bytes after its checksum are dropped, all without a warning (C167_save, C167_same_refuted).
- Reading the blocks of a flash header and assigning them back can change its data without a warning (C168_same_refuted).
- The radical text `(` (or any text of parentheses only) loads as the number 1 (seen in C108).
- No monochrome GDB loads its own dictionary: the colour Mono is left out by `dict()` and required by `load_dict()`, which raises KeyError (C111). The same happens to a colour GDB with an equation of colour 0.
- No sequence GDB with a named plot type loads its own dictionary, nor the packaged default: inside `seqSettings` the code reads `dct["seqMode"]`, which is elsewhere (C112, C113).
- `load_dict()` of a monochrome class loads a default with colour settings. The class changes to the colour one and the colour bytes are written over the last equations (C113).
- The defaults use the key `globalStyle`, the code reads `globalLineStyle`; the setting is ignored (C113: the line style of the defaults is 0, which happens to be the wanted one).
- The dictionary of a GDB shows `GridLine` as `GridOff` (C110), gives None for unnamed styles and colours (C109), and shows a border of 0, which loads as 4 (C110). The size word of a GDB loaded from a dictionary is that of an empty one (C110).
- The warnings of parametric GDBs about styles or colours that differ within a pair can never be given, because the pair shares one stored value (lemma `pair_checks_quiet`, used in C110).
- Constructing an entry from bytes or from another entry replaces the stored version byte by the computed one (C115), so `TIProgram(entry)` is not always a copy.
- Versions 7 and 0x27 are computed for tokens of the newest systems but no class lists them, so the library rejects its own result as unrecognised (C116).
- The handler that warns about an invalid token during loading is never reached, because decoding never raises (C117). `TIVar.load_bytes` reads entries as plain `TIEntry`, whose `load_bytes` makes no version check.
- The text in the format "t" cannot be loaded when it holds a fraction: `1/2` is written `1n/d2`, and no reader knows `n/d` (C119-C121). A negative whole fraction is written `~2` and refused too, though the other kinds read the tilde (C119).
- `1 - 2i` is written `1~2[i]`, which `load_string` refuses, because it splits only at `+` and `-` (C122).
- The PIL plugin for `.8ca` files cannot open any file it saved: the length word is one too small (C57), the reader warns about it, and `_open` turns warnings into errors (C125).
- The PIL encoders check only the number of pixels: an image 63 wide and 96 high is saved as an `.8xi` file, with its rows cut up (C126).
- A picture whose data are shorter than its length word opens in PIL without a warning and fails with `IndexError` when its pixels are decoded (C126).
- The format string `x:` of a program gives its text with lines numbered in hexadecimal, not the dump separated by colons that other entries give (C130).
- The format string `x=` of a real number gives the number, and `xt` a dump separated by `f` (C132).

Numbers
* Superfluous leading zeros mis-scale ("012" loads 1.2, C25), as do underscores. A rejected literal leaves a new mantissa behind (C28).
* Negating a radical flips an unused bit: the value does not change (C69). Components of 1000 or more are mangled (C32). Valid radicals are refused: zero leading scalar, "3√2-3√2", "√2/-3" and "√2/+3" (any signed denominator under a single root), and sums without a root such as "3+4" (C73). The empty text loads 1.
* "π" loads 0 and "-π" loads -0 (C70); a zero multiple prints "0", which is refused on loading (C74).
* Complex: "2-i" has imaginary part -0 (C75); "1e-5+2i" and "1e-5" load 1-5i, extra summands are ignored (C76); "1/2+i" loads but "1+1/2i" raises ValueError and "1/0+i" ZeroDivisionError, and the loop's test for the present kind never applies because no real type has a complex tag (C90); "" raises IndexError. Assigning a part overwrites the operand's tag (C34); the version depends on sign bits and `get_min_os` then raises TypeError (C35). Coercion rewrites the type byte from the data, so type 0x23 becomes 0x03 and a flag bit appears.
* Lists: empty lists never load (C39); flashless list() raises (C36); the version is always 0 (C38). Matrices: the width check uses the previous height, a matrix without columns loses its rows (C37).

Tokens
* A malformed byte literal encodes to nothing and an empty token name loops for ever (C43); two byte literals can decode as one token (C47).
* Name contexts munch nine and six tokens, and a byte literal in the last place removes the limit (C46).
* The clock search is not token-aligned; versions 0x07 and 0x27 are computed but not recognised (C49); emptying an entry keeps its old version (C50); lines() drops store arrows and quotes (C48).
* Protecting an object of the assembly class raises UserWarning (C51).

Groups, pictures
* Lists (IndexError), complex numbers (ValueError), graphed equations and flashless entries (AttributeError) cannot be grouped or ungrouped; matrices and default-named settings come back different (C53). The version function runs on partial data at each step.
* load_array does not check dimensions (C54); odd palette rows lose a pixel (C55); green values of 256 or more overlap red; the length word of a TIImage is one short (C57); Image0 is rejected and its byte reads Image10 (C58).

GDBs, settings
* A fresh equation corrupts the following ones; a plain TIEquation raises or corrupts; style and colour of pair seconds are dropped (C59). The length word goes stale (C84) and mono() always warns (C60). Any GDB longer than 61 bytes loaded generically becomes a colour class (C60).
* vnMin shows vnMinp1 (C83); sequence load_dict raises KeyError on seqMode; the sequence_flags view uses GraphMode. Constructing a colour GDB overwrites two colours (C82). Settings load_dict never works (C62).

Flash
* Constructed headers write 23 bytes too many and reload empty (C63). `TIFlashHeader(init)` ignores its argument and the checksum flag is never reset (C89). View setters raise TypeError (C88).
* The extension fallback tests the wrong variable (C86). A terminated last Intel line is unreadable (C85). Blocks without data cannot be written; the first character and trailing text of a block are ignored; a block of 256 bytes or more gets a three-digit size (C64).
* "5.01" becomes 5.1, "1.-5" becomes 0.95, years above 9999 carry into the month (C65). Files shorter than 78 bytes raise OSError in open.
