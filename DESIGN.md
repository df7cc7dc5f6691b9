# Formal model of wz-reader-rs: design

For each of the 284 properties in `properties.jsonl` this file says what is modelled and how it is proved, and what
is trusted.

## Layout

* `rocq/theories/Model/*.v` – executable Gallina model.  No proofs.  Every definition cites the file and lines of the
  source it follows.
* `rocq/theories/Spec/*.v` – small independent specifications (encoders, byte layouts, bit-level meanings, tree
  predicates, AES-256, SNOW 2.0, ChaCha20).  They do not use model functions.
* `rocq/theories/Proofs/*.v` – lemmas.
* `rocq/theories/Props/*.v` – the theorems listed in `MANIFEST.json`, each followed by `Print Assumptions` and by an
  `Example` that a concrete case meets the hypotheses.
* `seeded/LOG.jsonl` – wrong programs the theorems were tried against.

## Conventions

* Bytes and all machine integers are `Z`; the width is made explicit by `wrap n x = x mod 2^n` (unsigned) and `sext n x`
  (two's complement reading).  Texts are lists of code points.
* Buffers are `list Z`; the predicate `bytes` says that every element is in 0..255.
* Positions (`usize`) are `Z` modulo 2^64 (a 64-bit target).
* **Overflow**: release profile.  Arithmetic that overflows wraps.  A debug build panics at the same places.
* **Panics** (slice index out of range, `unwrap` on an error, capacity overflow, division by zero, a lock taken twice by
  the same thread) are an explicit result `Panic`.  `Result`/`Option` stay data.  Recursion that is not structural takes
  fuel and has an explicit `OutOfFuel` result; theorems that something is read say that all larger amounts of fuel give
  the same result, theorems that something does not end say that every amount of fuel runs out.
* A cursor reader is a state function: the position after the call is part of the result also when the call fails, as in
  the Rust code where `read_*` moves before `?` returns.
* Oracles are function parameters, never axioms: the key stream of an `EcbDecryptor` (instantiated with AES-256 of
  `Spec/Aes.v` where the built-in keys matter), zlib inflate, the BC7 decoder, IEEE-754 reading of 4 and 8 bytes (floats
  are kept as their bit patterns).

## How the proofs go

* **Reader, strings, keys** (C01–C07, C44, C47–C49, C58–C60, C135, C204–C207, C226): slice and little-endian lemmas, induction on the text,
  `Z.lxor` algebra; the key buffer by the invariant that it is a prefix of the iterated stream.
* **Offsets, versions** (C08–C15, C50–C57): explicit inverses; rotations by bit positions; the pruned bit search by an
  invariant of its recursion (the bits below the index agree with the column sums); the scans by induction on the range.
* **Header** (C16): case analysis over the four layouts.
* **Property lists** (C17–C21, C42, C43, C61–C66): a byte layout relation written without the reader; parser against
  layout by induction on the tree, fuel by a measure on the cursor; refutations by concrete images.
* **Directories** (C22–C24, C67–C76, C89–C91): the same with `Spec/DirWire.v`, `Spec/DirWire2.v`; detection by induction
  on the candidates, with the state that failing candidates leave behind.
* **Node tree** (C25–C31, C77–C88, C104–C107, C197–C203): a heap of nodes with parent pointers and locks held; induction on the tree
  predicates of `Spec/Tree.v`.
* **Canvas** (C32–C35, C46, C92–C103, C114): pixel formulas of `Spec/Pixel.v`; the index arithmetic of blocks and squares.
* **Sound, lua, raw data** (C36, C37, C108–C113): symbolic lists; AES-256 by computation.
* **Archives** (C38–C41, C45, C115–C134): ciphers against `Spec/Snow2.v`, `Spec/ChaCha.v` (checked against published test
  vectors), readers as refinements of the deciphered stream, archives by a layout relation.
* **Keys guessed, files opened** (C136–C161, C194–C196, C231–C237): the guess on the layout of the first entry; whole files by composing the
  header, guess, version, directory and name theorems.
* **JSON** (C162–C180, C193): serde's derives and serde_json's map modelled by their effect on these types; sorted-map lemmas, induction
  on the tree; the link to stored images through the property theorems.
* **Installations** (C181–C192): a file system as a tree of named entries, opening a package as an oracle; the result described
  without an order of visiting (`Spec/Install.v`), the loops against it by an invariant.
* **Whole packages, archives, image files** (C223–C225, C227–C230, C238–C244, C245–C284): a world of nodes, each with what it is read from; parsing a node plants what the models above return. Images with links (C251–C253) are resolved as they are parsed; where a path leads through links is given by relations over the stored properties (Spec/Linked.v). Pictures and data found by path (C254–C257): `get_image` with its inlink and outlink lookups runs on the world; which canvas a place stands for is a relation over the stored properties (Spec/Portrait.v). In a package called "Base" (C258, C259) outlinks count from its top and read what is on the way, with the locks held by the callers; Spec/Outlook.v says which canvas a path stands for. Spec/Blocked.v says from which canvases no picture is ever given (C262, C263): outlinks below a canvas held by the call, and links that go round; there is no other case (C264, by following the links through the finitely many paths). In archives (C260, C261) every image has its own reader over its own decrypted bytes. Whole packages and archives whose images have links (C265–C268): every path is decided by two relations over the stored content (Spec/WholeLinks.v), down the directories and then through the links of the one image; reading an image resolves its links at that moment, and what was found before stays. Forced walks through them (C269–C273): the walk holds a node for reading while it is below it, and writing to a held node is a deadlock; the proofs compare it with a walk without locks, which returns if and only if the paths are bounded, and then no lock is in the way. C274 and C275 add that two ways to a place end at one node, so that the nodes a walk holds are different places, of which there are so many: the walk returns or deadlocks, within a depth that is the same at any time and for any order. Pictures and data in them (C276–C281): Spec/PortraitLinks.v says which canvas a path through links stands for; that the pictures are found rests on every node of an image lying below it with nothing but plain nodes between. In archives each image keeps its own reader whatever is done to the tree (Proofs/OwnL.v). Walks without force (C282, C283) need no description of the file: parsing, unparsing, lookups and walks of any outcome keep the children of each node told apart and present (Proofs/LostL.v), and paths are a relation over the tree (Spec/Stroll.v). Forced walks over any file (C284): parsing a node changes no node there was but that one, and images stay images (Proofs/FreedL.v), so unparsing at the end of each visit is not undone.
  The content of a package is a tree written down in `Spec/Whole.v`; an invariant (every node is a place of the content, read or not)
  is kept by every lookup.
  Forced walks keep a weaker invariant (images may also have been let go); the trace of a walk holds each node with the world in which
  `f` met it, and the order of the children is any permutation.
* **Shared decryptors** (C213–C222): a ring of numbered cells against the keys they are known by; the invariant of C06 for every
  cell over all sequences of uses.
* **Vectors** (C208–C212): modular arithmetic; f64 by `SpecFloat` of the standard library.

## Trusted base

* The Coq kernel (8.16.1), `coqc`, the standard library.
* What `Print Assumptions` says of the 370 theorems of `MANIFEST.json`: see below.
* The hand translation of the Rust code into the `Model` files, and the specifications in `Spec`.
* Not modelled at all: mmap and i/o errors (a file is its bytes, a file system a tree of them), threads (locks are modelled for one thread), the
  scheduling of rayon, zlib and BC7 internals, float arithmetic other than `Vector2D::distance`, the text form of JSON, rendering of images by the `image` crate.


## Per property

Status and note as in `MANIFEST.json`; *refuted* means that the statement as a user would wish it is false of the
faithful model, and the theorem gives the witness.  The code modelled for a property is that of its anchors.

| id | property | modelled code | theorems (file in `Props/`) | status, how, note |
|----|----|----|----|----|
| C01 | Compressed integers decode to the value that was written | reader.rs: Reader::read_wz_int, read_wz_int64, WzSliceReader; reader.rs: read_wz_int_at | `C01_wz_int_roundtrip`, `C01_wz_int64_roundtrip` (P_Reader) | **proved**; all i32/i64 values in any buffer |
| C02 | Fixed-width reads succeed exactly when the bytes are there | reader.rs: Reader::read_u8_at .. read_i64_at, WzSliceReader::read_u8 .. read_i64 | `C02_read_unsigned`, `C02_read_signed`, `C02_cursor` (P_Reader) | **proved**; all widths; error iff the field is not inside the buffer |
| C03 | Following a string offset never disturbs the sequential cursor | reader.rs: WzSliceReader::read_wz_string_block, read_wz_string_at_offset, read_wz_string_block_meta, read_wz_string_meta_at | `C03_offset_string_cursor` (P_Reader) | **proved**; both eager and deferred forms; also says which position the text is read from |
| C04 | Lazy strings equal eager strings | reader.rs: read_wz_string, read_wz_string_meta, Reader::resolve_wz_string_meta; property/string.rs: WzString::get_string | `C04_lazy_string`, `C04_lazy_string_block` (P_Reader) | **proved**; buffers below 2 GiB (an i32 length cannot overflow the cursor) |
| C05 | String encoder and decoder are inverse on BMP text | property/string.rs: WzString::from_str, from_str_pkg2_dir, encrypt_str, resolve_string_from_node; reader.rs: resolve_ascii_raw, resolve_unicode_raw | `C05_string_roundtrip_bmp` (P_Strings) | **proved**; AES is an arbitrary length-preserving block function |
| C06 | The keystream does not depend on who asked first | util/string_decryptor/ecb_decryptor.rs: EcbDecryptor::ensure_key_size, at | `C06_keystream_history_independent`, `C06_growth` (P_Keys) | **proved**; all histories of ensure/decrypt/at |
| C07 | Stream decryption is an involution and position-addressed | util/string_decryptor/ecb_decryptor.rs: decrypt_slice; util/string_decryptor/pkg2_decryptor.rs: decrypt_slice | `C07_ecb_involution`, `C07_ecb_zero_iv_identity`, `C07_pkg2_involution`, `C07_split` (P_Keys) | **proved** |
| C08 | Directory entry offsets are decoded without loss | util/offset.rs: WzOffsetMeta / calculate_offset variants | `C08_offset_bijection`, `C08_classic_formula`, `C08_pkg2_formula` (P_Offset) | **proved**; All five calculators (Model/Offset.v). Bijection by explicit inverse; in addition each scheme is shown equal to an independent formula with mod/rotation given by bit positions. |
| C09 | Version guessing for classic packages is sound and complete | util/version/pkg1.rs: Pkg1VersionGen / check_and_get_version_hash, calculate_version_hash | `C09_guess_exact`, `C09_guess_complete`, `C09_explicit` (P_Version) | **proved**; Version hash, checker, scan and candidate selection (Model/VersionPkg1.v). Decimal notation and folding are specified independently. |
| C10 | Packages without a version field can be opened for every client generation in the scan range | file.rs: WzFile::parse_pkg1; util/version/pkg1.rs: check_and_get_version_hash | `C10_scan_770_780_refuted`, `C10_scan_only_770` (P_Version) | **refuted**; without a version field only 770 of 770..780 is ever tried with a usable hash. |
| C11 | Package-2 hash recovery (direct schemes) has exactly one answer | util/version/pkg2.rs: V1, V6 generators, Pkg2Profile::verify_hash | `C11_v1_unique`, `C11_v6_unique` (P_Version) | **proved**; Rotation specified by bit positions. |
| C12 | Package-2 hash recovery (bit search) only returns valid hashes | util/version/pkg2.rs: backtrack, V2, V3 | `C12_bit_search_sound` (P_Version) | **proved**; Soundness of the pruned recursion; corollary of the exact characterisation. |
| C13 | Package-2 hash recovery (bit search) never loses the true hash | util/version/pkg2.rs: backtrack, V2, V3 | `C13_bit_search_complete_refuted` (P_Version) | **refuted**; hashes divisible by 32 (V2), or with low bits 0 when h1's low bits are 0 (V3), are lost; exact set in C56. |
| C14 | Package-2 hash recovery (exhaustive schemes) returns exactly the solutions below 2^32-1 | util/version/pkg2.rs: brute_force_hash, V4, V5 | `C14_brute_force_exact` (P_Version) | **proved**; Filter over the range 0..2^32-2. |
| C15 | Chained version generators try all candidates | util/version/pkg2.rs: VersionGen Iterator::next | `C15_chain_complete_refuted` (P_Version) | **refuted**; a scheme without candidates ends the loop (h1 = h2 = 0: nothing is tried although V1 has a solution). |
| C16 | Opening arbitrary header bytes is total | header.rs: WzHeader::read_from_buf, get_header, get_encrypted_version | `C16_header_total`, `C16_header_sound`, `C16_header_complete` (P_Header) | **proved**; All four header layouts (Model/Header.v) on arbitrary bytes. |
| C17 | An extended property is framed by its size field | util/parse_property.rs: parse_property_node (type 9), parse_property_list | `C17_extended_property_framed` (P_Image) | **proved**; Any bytes, any list that parses: the entry behind an extended property is read from where the stored size says. Buffers shorter than 2^31 bytes. |
| C18 | Image content round trip | util/parse_property.rs: parse_property_list, parse_property_node, parse_extended_prop, parse_more; wz_image.rs: WzImage::resolve_children | `C18_layout_parsed`, `C18_image_roundtrip` (P_Image) | **proved**; C18_layout_parsed is stated on a layout relation (all entry kinds, references included), C18_image_roundtrip on a serialiser. Fuel is existential but every larger fuel gives the same result. Buffers shorter than 2^31 bytes. |
| C19 | Direct access agrees with full parsing | util/parse_property.rs: get_node, parse_property_list; wz_image.rs: WzImage::at_path | `C19_direct_access_agrees` (P_Image) | **proved**; For arbitrary bytes (not only serialised trees). `follows` asks for unique names and no null entry named by a number on the lists walked (see C42, C43 for what happens otherwise). |
| C20 | Direct access reports a missing component | util/parse_property.rs: get_node | `C20_missing_component_refuted` (P_Image) | **refuted**; a missing component that is not the last one makes get_node continue with the bytes behind the list. The true part is C64. |
| C21 | Parsing arbitrary image bytes returns | util/parse_property.rs: parse_property_list, parse_more | `C21_parsing_returns_refuted`, `C21_endless_recursion_refuted` (P_Image) | **refuted**; a negative count panics in with_capacity; a string with negative length moves the cursor backwards and a 40-byte image is parsed forever. The true part is C62. |
| C22 | Directory listing round trip | directory.rs: WzDirectory::resolve_children, resolve_entry_pkg1, read_pkg1_entry, calculate_offset_and_verify; file.rs: WzFile::parse_pkg1, try_decode_with_wz_version_number | `C22_directory_roundtrip`, `C22_open_with_version` (P_Directory) | **proved**; Layout relation Spec/DirWire.v (classic), written without the reader; the resulting nodes are compared with Spec/DirView.v. |
| C23 | Opening a package terminates | directory.rs: WzDirectory::resolve_children | `C23_cyclic_directory_refuted`, `C23_pkg2_listing_refuted` (P_Directory) | **refuted**; a 10-byte directory that lists itself recurses for every amount of fuel; an 8-byte package-2 listing with a negative name length loops for ever, growing the entry list. |
| C24 | Unparse followed by parse restores a node's children | node.rs: WzNode::parse, unparse; directory.rs: WzDirectory::resolve_children, prepare_entries | `C24_reparse_directory_refuted`, `C24_reparse_loses_children` (P_Directory) | **refuted**; for directory nodes: after parse and unparse, the second parse succeeds with no children (for every file). File and image nodes re-read from the buffer (parse_pkg1 and image_children are functions of the buffer). |
| C25 | A node's full path leads back to it | node.rs: WzNode::get_full_path, get_path_from_root, at_path | `C25_path_leads_back`, `C25_full_path`, `C25_full_paths_differ` (P_Node) | **proved**; For every node hanging below a root by a path of slash-free names; fuel only has to reach the depth. |
| C26 | Relative lookup undoes descent | node.rs: at_relative, at_path_relative, filter_parent | `C26_climb`, `C26_climb_and_descend`, `C26_beyond_root` (P_Node) | **proved**; For every node below an ancestor, every number of climbs. |
| C27 | Moving children merges by name | node.rs: WzNode::transfer_childs; util/node_util.rs: resolve_childs_parent | `C27_transfer` (P_Node) | **proved**; For all finite trees without sharing; locks held by the caller and the recursion are modelled. |
| C28 | Walking visits every node exactly once, parents first | util/walk.rs: walk_node | `C28_walk`, `C28_images_released` (P_Node) | **proved**; The second theorem assumes that reading an image only adds nodes; the visitor does not change the tree. |
| C29 | UOL path resolution normalises relative paths | util/node_util.rs: get_resolved_uol_path | `C29_resolved_path`, `C29_no_dots` (P_Link) | **proved**; The two false halves of the documented behaviour are C81 and C82. |
| C30 | UOL resolution replaces links by their targets and touches nothing else | util/node_util.rs: resolve_uol | `C30_link_replaced`, `C30_link_missing`, `C30_only_links` (P_Link) | **proved**; One thread; the write lock of the image being parsed is modelled. |
| C31 | Finding the image on a path | util/node_util.rs: get_image_node_from_path | `C31_image_by_name`, `C31_image_on_way`, `C31_no_image` (P_Link) | **proved**; The paths left out are those of C86. |
| C32 | Pixel format expansion is the standard bit expansion | util/color.rs; property/png.rs: WzPng::extract_png, get_image_from_* | `C32_pixels`, `C32_widening`, `C32_lossless` (P_Canvas) | **proved**; Through extract_png from the stored data in any storage form; the decompressor is an arbitrary function. |
| C33 | Block compressed pictures decode every pixel from its own block | property/png.rs: get_pixel_data_dxt3, get_pixel_data_dxt5 (DXT grid iteration) | `C33_own_block` (P_Canvas) | **proved**; With the feature rayon; for the rest see C92, C93, C103. |
| C34 | Form-517 images expand each stored pixel to a 16x16 square | property/png.rs: get_pixel_data_form_517 | `C34_squares` (P_Canvas) | **proved**; Both sizes multiples of 16; see C95. |
| C35 | Encrypted image data is reassembled block by block | property/png.rs: WzPng::get_raw_data / extract | `C35_any_form` (P_Canvas) | **proved** |
| C36 | WAV export prepends a correct 44-byte header | property/sound.rs: WzSound::get_buffer, write_to, get_wav_header | `C36_wav`, `C36_shown` (P_Media) | **proved**; C36_shown covers every sound node that parsing can give. |
| C37 | Lua script decoding does not reject a script decodable with a known key | property/lua.rs: extract_lua, get_mtb_keys_from_guess_lua_iv | `C37_straddle_refuted`, `C37_short` (P_Media) | **refuted**; with real AES-256 and the real key: a character across byte 64; proved for scripts of at most 64 bytes (C37_short), and in general in C108, C109. |
| C38 | Snow2 decryption inverts Snow2 encryption | ms/snow2_decryptor.rs: Snow2Decryptor::new, decrypt_slice, decrypt_block | `C38_inverse`, `C38_continues`, `C38_total` (P_Snow2) | **proved**; the key stream is specified as SNOW 2.0 with IV 0 and sign-extended key bytes (Spec/Snow2.v, checked against published test vectors) |
| C39 | Buffered Snow2 reading equals decrypting the whole stream | ms/snow2_reader.rs: read_i32, write_bytes_to, read_utf16_string ... | `C39_pieces` (P_MsRead) | **proved**; odd lengths: see C117, C118 |
| C40 | Pieces come back from a ChaCha20 stream in order | ms/chacha20_reader.rs: apply_keystream, read_i32, read_utf16_string, read_bytes | `C40_pieces` (P_MsRead2) | **proved**; for every block function of 64-byte blocks; shown of the RFC 8439 one (chacha64) |
| C41 | Images of MS archives are placed on 1024-byte boundaries | ms/file.rs: parse_v1 | `C41_placed` (P_Ms) | **proved**; version 2: C128 |
| C42 | A property that cannot be understood keeps its own name | util/parse_property.rs: parse_property_node, parse_more | `C42_unknown_keeps_name_refuted` (P_Image) | **refuted**; an unknown type of a convex item makes the convex itself appear as a null node under the item's number. The true part is C65. |
| C43 | Duplicate names: direct access and full parse pick the same node | util/parse_property.rs: get_node; node.rs: WzNode::parse | `C43_duplicates_refuted` (P_Image) | **refuted**; the map keeps the last property of a name, direct access returns the first. |
| C44 | Package-2 directory names decode to the text that was encoded | util/string_decryptor/pkg2_decryptor.rs; reader.rs: resolve_pkg2_dir_raw | `C44_pkg2_dir_roundtrip_bmp` (P_Strings) | **proved** |
| C45 | Images of MS v1 archives are decrypted over their whole length | ms/ms_image.rs: to_wz_image_v1 | `C45_image` (P_Ms) | **proved** |
| C46 | Decoded pictures have the announced size | property/png.rs: get_buff_size, From<..> for RgbaImage | `C46_size`, `C46_announced` (P_Canvas) | **proved**; Sizes whose byte count fits 32 bits; format 3 is C99. |
| C47 | Changing the IV gives the key stream of the new IV | util/string_decryptor/ecb_decryptor.rs: EcbDecryptor::set_iv | `C47_set_iv_fresh_stream_refuted` (P_Keys) | **refuted**; set_iv keeps the key bytes already produced from the old IV |
| C48 | Asking a single key byte never panics | util/string_decryptor/ecb_decryptor.rs: EcbDecryptor::at | `C48_key_at_total_refuted` (P_Keys) | **refuted**; at() panics for the zero IV; for other IVs it holds (C06_keystream_history_independent) |
| C49 | String encoder and decoder are inverse on all Unicode text | property/string.rs: WzString::from_str; property/string.rs: encrypt_str, from_str_pkg2_dir | `C49_string_roundtrip_unicode_refuted`, `C49_pkg2_dir_unicode_refuted` (P_Strings) | **refuted**; characters above U+FFFF are counted once but take two code units |
| C50 | A cached version hash is accepted for another file exactly if it fits | util/profile.rs: Pkg2Profile::verify_hash, get_hash_iter | `C50_cached_hash_check`, `C50_generated_accepted` (P_Version) | **proved**; All seven profiles. |
| C51 | Version field detection | header.rs: WzHeader::get_encrypted_version | `C51_version_field_detected` (P_Header) | **proved**; Byte-level analysis of the detection heuristics on encoder output. |
| C52 | A missing version field is always recognised | header.rs: WzHeader::get_encrypted_version | `C52_missing_version_field_refuted`, `C52_missing_version_field_sharp` (P_Header) | **refuted**; exactly the entry counts that are multiples of 256 are misread as version field 128 (entry count read one byte too far). |
| C53 | Only versions whose hash fits the header are offered | util/version/pkg1.rs: check_and_get_version_hash | `C53_guess_strict_refuted` (P_Version) | **refuted**; version number equal to the field is accepted without hash check (header 1, version 1). |
| C54 | The version of a package without version field can be given explicitly | file.rs: WzFile::parse_pkg1; util/version/pkg1.rs: check_and_get_version_hash | `C54_explicit_without_field_refuted`, `C54_explicit_only_770` (P_Version) | **refuted**; every explicit version other than 770 is rejected. |
| C55 | Exhaustive hash search covers all 32-bit hashes | util/version/pkg2.rs: brute_force_hash | `C55_brute_force_all_refuted` (P_Version) | **refuted**; hash 0xFFFFFFFF is never tried. |
| C56 | Exact result set of the bit search | util/version/pkg2.rs: backtrack, V2, V3 | `C56_bit_search_exact` (P_Version) | **proved**; Invariant of the recursion: bits below the index agree with the column sums; see Proofs/VersionL.v backtrack_spec. |
| C57 | Chained version generators, the part that holds | util/version/pkg2.rs: VersionGen Iterator::next | `C57_chain_complete_when_nonempty` (P_Version) | **proved**; Induction on the iterator state. |
| C58 | Stored strings are read as the format lays them out | reader.rs:427-606; reader.rs:917-923; property/string.rs:160-164 | `C58_stored_string_read`, `C58_inline_block_read`, `C58_offset_block_read`, `C58_pkg2_name_read` (P_StrWire) | **proved**; The byte layout is defined in Spec/StrWire.v, independent of the model. The texts excluded are exactly those whose length does not fit the length field. |
| C59 | A string object built from text stores the format's bytes | property/string.rs:110-138; property/string.rs:177-229 | `C59_built_string_bytes` (P_StrWire) | **proved**; Compared with the layout of Spec/StrWire.v. |
| C60 | Package-2 name keys follow the published schedule | util/string_decryptor/pkg2_decryptor.rs:29-109 | `C60_pkg2_key_schedule`, `C60_pkg2_key_derivation` (P_Pkg2Keys) | **proved**; Arithmetic written with div/mod instead of shifts and masks. |
| C61 | Collected links are exactly the UOL nodes | util/parse_property.rs: parse_property_list, parse_more | `C61_links_are_uol_nodes` (P_Image) | **proved**; UOL nodes are represented by their paths below the list. |
| C62 | Parsing terminates on data without negative string lengths | util/parse_property.rs: parse_property_list, parse_more; reader.rs: read_wz_string | `C62_parsing_terminates` (P_Image) | **proved**; Fuel 2*length+1 is never exhausted. The hypothesis is over all positions holding 0x80 followed by a 32-bit number. |
| C63 | Parsing work is bounded by the data | util/parse_property.rs: parse_property_node (type 9) | `C63_work_bounded_refuted` (P_Image) | **refuted**; size fields need not cover what was parsed inside, so the same bytes are parsed again by each ancestor; 1149 bytes give at least 2^63 nodes. |
| C64 | Direct access reports a missing last component | util/parse_property.rs: get_node; wz_image.rs: WzImage::at_path | `C64_missing_last_component` (P_Image) | **proved**; The components before the last lead through sub-properties with unique names. |
| C65 | An unknown extended type becomes a null node under its own name | util/parse_property.rs: parse_property_node, parse_more | `C65_unknown_type_named` (P_Image) | **proved**; The type name may be in place or given by reference. |
| C66 | Direct access reaches children of canvases | util/parse_property.rs: get_node, parse_more (Canvas) | `C66_direct_access_canvas_refuted` (P_Image) | **refuted**; get_node skips the two bytes of a sub-property header where a canvas has one more, so the list is read from the wrong place and the child is not found. |
| C67 | Version detection never refuses a well-formed classic package | file.rs: WzFile::parse_pkg1, try_decode_with_wz_version_number; directory.rs: WzDirectory::resolve_children, prepare_entries | `C67_detection_accepts` (P_Directory) | **proved**; The state left behind by failing candidates is part of the model. A panic or endless recursion under an earlier wrong candidate is not excluded (C23, C74). |
| C68 | The detected version is the version of the package | file.rs: WzFile::parse_pkg1 | `C68_detected_version_refuted` (P_Directory) | **refuted**; an empty package made with version 630 is reported as version 83. |
| C69 | What opening a classic package guarantees | file.rs: WzFile::parse_pkg1, try_decode_with_wz_version_number; directory.rs: WzDirectoryEntry::verify | `C69_accepted_tree` (P_Directory) | **proved**; For every buffer, whatever its content. |
| C70 | Package-2 directory round trip | directory.rs: WzDirectory::resolve_entry_pkg2, resolve_entry_pkg2_v64, read_pkg2_entry; util/offset.rs | `C70_pkg2_roundtrip` (P_Directory) | **proved**; Layout relation Spec/DirWire2.v with strict = true; the excluded cases are C71-C73. |
| C71 | Any enciphered entry count works | directory.rs: WzDirectory::read_pkg2_entry, resolve_entry_pkg2 | `C71_any_count_refuted` (P_Directory) | **refuted**; a count of 3 is taken for another entry. |
| C72 | Empty package-2 directories are read back | directory.rs: WzDirectory::resolve_entry_pkg2 | `C72_empty_directory_refuted` (P_Directory) | **refuted**; the listing is refused, and with it the package. |
| C73 | 64-bit packages with subdirectories are read back | directory.rs: WzDirectoryEntry::verify | `C73_wide_subdirectory_refuted`, `C73_top_bit_rejected` (P_Directory) | **refuted**; if hash1 xor hash has its top bit set every subdirectory is refused. |
| C74 | Opening a package never panics | directory.rs: WzDirectoryEntry::into_wz_node_tuple | `C74_no_panic_refuted` (P_Directory) | **refuted**; an 18-byte package whose only name reaches behind the end of the file. |
| C75 | Images of an opened package lie inside the file | directory.rs: WzDirectoryEntry::verify | `C75_images_inside_refuted` (P_Directory) | **refuted**; an image of size 2^64 - 5 is accepted. The form that holds is in C69. |
| C76 | Text and script images | wz_image.rs: WzImage::resolve_children | `C76_text_images` (P_Image) | **proved**; For every buffer below 2 GiB. |
| C77 | The root's own path and names with slashes | node.rs: get_path_from_root, at_path | `C77_root_path_refuted`, `C77_slash_name_refuted` (P_Node) | **refuted**; the root's path is not found, nor is a child whose name contains a slash. |
| C78 | Path from the image and inlinks | node.rs: get_path_from_image; util/node_util.rs: resolve_inlink | `C78_image_path`, `C78_no_image` (P_Edit, P_Node) | **proved** |
| C79 | filter_parent finds the nearest ancestor | node.rs: filter_parent, get_base_wz_file, get_parent_wz_image; util/node_util.rs: resolve_outlink | `C79_nearest_ancestor`, `C79_no_ancestor`, `C79_outlink` (P_Node) | **proved** |
| C80 | Repairing parents | util/node_util.rs: resolve_childs_parent | `C80_repair_parents` (P_Node) | **proved** |
| C81 | Climbing out of the tree | util/node_util.rs: get_resolved_uol_path | `C81_climbing_out_refuted` (P_Link) | **refuted**; '..' is pushed when the list is empty and popped by the next '..', so '../../dir' right below the root is 'dir'. |
| C82 | '.' components are resolved | util/node_util.rs: get_resolved_uol_path | `C82_dot_dropped_refuted` (P_Link) | **refuted**; './y' keeps the '.', and the lookup fails. |
| C83 | Chains of links are resolved | util/node_util.rs: resolve_uol; node.rs: parse | `C83_chains_refuted` (P_Link) | **refuted**; a link to a link that comes later is replaced by that link node, which stays a link. |
| C84 | Walking ends | util/walk.rs: walk_node; util/node_util.rs: resolve_uol | `C84_walk_ends_refuted` (P_Node) | **refuted**; a link to an ancestor makes the walk without parsing endless (out of fuel for every fuel) and the walk with parsing lock a node it holds. |
| C85 | What a parsing lookup returns is in the tree | node.rs: at_path_parsed, at_path, parse | `C85_found_again` (P_Link) | **proved**; Assumes that reading only adds nodes and that links found lie inside what was read. |
| C86 | Image lookup handles every path | util/node_util.rs: get_image_node_from_path | `C86_no_panic_refuted`, `C86_image_itself_refuted`, `C86_rest_lost_refuted` (P_Link) | **refuted**; a path ending at an image without '.img' panics, one ending in '.img' finds nothing, a second '.img' cuts the rest. |
| C87 | Lookup without parsing agrees with plain lookup | util/node_util.rs: get_node_without_parse | `C87_without_parse` (P_Link) | **proved**; The lookup in an unparsed image is a parameter here; it is modelled and proved in C19. |
| C88 | Moving a node's children to itself | node.rs: transfer_childs | `C88_transfer_to_self_refuted` (P_Node) | **refuted**; the write lock of the target is the one the caller holds. |
| C89 | An opened package consists of directories and images | directory.rs: WzDirectoryEntry::read_pkg1_entry, into_wz_node_tuple | `C89_only_known_nodes_refuted` (P_DirReject) | **refuted**; a type-2 entry whose referenced type byte is 2 again becomes an empty node. |
| C90 | Unknown entry types and negative entry counts are rejected | directory.rs: resolve_entry_pkg1, resolve_entry_pkg2, resolve_entry_pkg2_v64, WzDirectoryEntry::verify | `C90_listing_types`, `C90_negative_count` (P_DirReject) | **proved** |
| C91 | A directory with the wrong profile is an error | directory.rs: WzDirectory::new, resolve_children; util/offset.rs: get_entry_count_calculator | `C91_wrong_profile_refuted` (P_DirReject) | **refuted**; panics; WzDirectory::new sets such a profile. |
| C92 | DXT pictures of any width decode from their own blocks | property/png.rs: get_image_from_dxt3, get_image_from_dxt5 (par_chunks over the rows of blocks) | `C92_any_width_refuted` (P_Canvas) | **refuted**; blocks per row are rounded down |
| C93 | DXT pictures decode without the feature rayon | property/png.rs: get_image_from_dxt3, get_image_from_dxt5 (cfg(not(feature = rayon))) | `C93_serial_refuted` (P_Canvas) | **refuted**; index out of bounds |
| C94 | DXT3 and DXT5 blocks have four colours | util/color.rs: create_color_table | `C94_four_colors_refuted` (P_Canvas) | **refuted**; the three-colour table of DXT1 is used when the first end colour is not the larger |
| C95 | Form-517 pictures of any size show stored colours | property/png.rs: get_pixel_data_form_517 | `C95_other_sizes_refuted` (P_Canvas) | **refuted**; pixels right of the last whole square stay black |
| C96 | Damaged canvases are reported as errors | property/png.rs: WzPng::extract_png, get_raw_data | `C96_damaged_refuted`, `C96_short_refuted` (P_Canvas) | **refuted**; slices panic |
| C97 | Every format with a known data size can be decoded | property/png.rs: get_buff_size; property/png.rs: extract_png | `C97_known_formats_refuted` (P_Canvas) | **refuted**; A8 and RGBA32Float |
| C98 | The announced size of a BC7 picture covers its blocks | property/png.rs: get_buff_size | `C98_bc7_blocks`, `C98_bc7_size_refuted` (P_Canvas) | **refuted**; proved for multiples of four (C98_bc7_blocks); not rounded up otherwise |
| C99 | Format 3 pictures of the announced size decode | property/png.rs: get_buff_size; property/png.rs: extract_png | `C99_small_dxt_refuted` (P_Canvas) | **refuted**; 1x1 panics |
| C100 | The announced size is the product of the sizes | property/png.rs: get_buff_size | `C100_huge_refuted`, `C100_coarse_refuted` (P_Canvas) | **refuted**; the 32-bit product wraps; in the coarse 565 format such sizes are a panic |
| C101 | Too few pixels of the formats 565 and 1555 are an error | property/png.rs: get_image_from_rgb565, get_image_from_argb1555 | `C101_short_565` (P_Canvas) | **proved** |
| C102 | BC7 pictures show the decoder's pixels | property/png.rs: get_image_from_bc7 | `C102_bc7_pixels` (P_Canvas) | **proved**; The BC7 decoder itself (texture2ddecoder) is an arbitrary function. |
| C103 | The feature rayon changes no pixel | property/png.rs: get_image_from_dxt3, get_image_from_dxt5 | `C103_rayon_same` (P_Canvas) | **proved** |
| C104 | Adding a child affects only the slot of its name | node.rs: WzNode::add | `C104_add` (P_Edit) | **proved** |
| C105 | The path of an added child leads to it | node.rs: WzNode::add; node.rs: WzNode::get_full_path | `C105_added_path_refuted` (P_Edit) | **refuted**; add does not set the parent pointer |
| C106 | Unparsing clears a container and nothing else | node.rs: WzNode::unparse | `C106_unparse` (P_Edit) | **proved** |
| C107 | Every container can be unparsed | node.rs: WzNode::unparse | `C107_ms_file_refuted` (P_Edit) | **refuted**; an MsFile node returns early |
| C108 | A sealed script is read correctly | property/lua.rs: extract_lua | `C108_sealed` (P_Media) | **proved** |
| C109 | Script extraction uses the first key that fits the first 64 bytes | property/lua.rs: extract_lua, get_mtb_keys_from_guess_lua_iv; util/string_decryptor/mod.rs: get_decryptor_by_iv | `C109_script` (P_Media) | **proved** |
| C110 | An unencrypted script is read as it is | property/lua.rs: get_mtb_keys_from_guess_lua_iv | `C110_plain_refuted` (P_Media) | **refuted**; the script "I=1" is read with the GMS key. |
| C111 | A script with an impossible length is an error | property/lua.rs: extract_lua; wz_image.rs: resolve_children | `C111_length_refuted` (P_Media) | **refuted**; slice panics. |
| C112 | Raw data and videos are handed out as stored | property/raw_data.rs: get_buffer; property/video.rs: get_buffer | `C112_stored` (P_Media) | **proved** |
| C113 | Media data of a parsed image are present | util/parse_property.rs: parse_more; property/sound.rs: get_buffer; property/raw_data.rs: get_buffer | `C113_data_present_refuted` (P_Media) | **refuted**; lengths are not checked when parsing; get_buffer panics. |
| C114 | A picture comes out only of accepted data | property/png.rs: WzPng::extract_png, get_raw_data, get_image_from_bc7 | `C114_no_picture` (P_Canvas) | **proved**; for any decompressor and block decoder |
| C115 | The Snow2 key stream is the one of the published SNOW 2.0 for keys of bytes below 128 | ms/snow2_decryptor.rs: Snow2Decryptor, tables in ms/snow2_decryptor.rs | `C115_standard` (P_Snow2) | **proved** |
| C116 | The Snow2 key stream is the one of the published SNOW 2.0 for all keys | ms/snow2_decryptor.rs: Snow2Ctx::with_key | `C116_standard_refuted`, `C116_full_is_false` (P_Snow2) | **refuted**; key bytes are taken as signed; the archives rely on it, so the variant is the specification in C38 |
| C117 | Snow2 reads of any length return consecutive pieces | ms/snow2_reader.rs: read_i32, write_bytes_to | `C117_odd_refuted`, `C117_full_is_false` (P_MsRead) | **refuted**; after a read of three bytes the second number is wrong |
| C118 | Snow2 byte reads never panic | ms/snow2_reader.rs: write_bytes_to | `C118_bytes_refuted` (P_MsRead) | **refuted**; one byte after one byte panics |
| C119 | Truncated Snow2 streams are errors | ms/snow2_reader.rs: read_i32, read_utf16_string, read_bytes | `C119_short` (P_MsRead) | **proved** |
| C120 | MS v1 archives open, list and give back every image | ms/file.rs: MsFile::from_file, parse; ms/header.rs: from_ms_file; ms/ms_image.rs: to_wz_image | `C120_archive` (P_Ms) | **proved**; the making of WzNodes from the entries is not modelled |
| C121 | MS v1 headers are checked | ms/header.rs: from_ms_file | `C121_header` (P_Ms) | **proved**; salt lengths below 128 and at most the number of random bytes |
| C122 | Opening something that is no MS archive is an error | ms/file.rs: MsFile::from_file; ms/header.rs | `C122_open_refuted`, `C122_full_is_false` (P_Ms) | **refuted**; files shorter than the random bytes panic |
| C123 | Turning an MS entry into an image never panics | ms/ms_image.rs: to_wz_image_v1 | `C123_image_refuted` (P_Ms) | **refuted**; empty names (remainder by zero), size above block size |
| C124 | An accepted MS header can be parsed without a panic | ms/file.rs: parse_v1 | `C124_count_refuted` (P_Ms) | **refuted**; negative entry count |
| C125 | Without pieces ending on block boundaries the stream is plain ChaCha20 | ms/chacha20_reader.rs: apply_keystream | `C125_plain` (P_MsRead2) | **proved** |
| C126 | Buffered ChaCha20 reading equals decrypting the whole stream | ms/chacha20_reader.rs: apply_keystream | `C126_cut_refuted`, `C126_full_is_false` (P_MsRead2) | **refuted**; after a read that ends on a 64-byte boundary the key stream starts from its first block again |
| C127 | Buffered bytes can be read at the end of the data | ms/chacha20_reader.rs: read_bytes, read_i32 | `C127_end_refuted` (P_MsRead2) | **refuted**; the second of two numbers in the last block panics |
| C128 | Images of MS v2 archives are placed on 1024-byte boundaries | ms/file.rs: parse_v2 | `C128_placed` (P_Ms2) | **proved** |
| C129 | Images of MS v2 archives are decrypted | ms/ms_image.rs: to_wz_image_v2 | `C129_image` (P_Ms2) | **proved** |
| C130 | MS v2 archives open, list and give back every image | ms/file.rs: MsFile::from_file, parse; ms/header.rs: from_ms_file_v2; ms/ms_image.rs: to_wz_image | `C130_archive` (P_Ms2) | **proved**; hypothesis not_version1: opening tries version 1 first, see C134 |
| C131 | MS v2 headers are read as stored | ms/header.rs: from_ms_file_v2 | `C131_header` (P_Ms2) | **proved** |
| C132 | MS v2 images can be read whatever their name | ms/ms_image.rs: to_wz_image_v2 | `C132_name_refuted` (P_Ms2) | **refuted**; names that are not ASCII panic |
| C133 | An accepted MS v2 header can be parsed without a panic | ms/header.rs: from_ms_file_v2; ms/file.rs: parse_v2 | `C133_count_refuted` (P_Ms2) | **refuted**; a negative count panics, the hash is not checked |
| C134 | Every MS v2 archive opens | ms/file.rs: MsFile::from_file; ms/header.rs: from_ms_file | `C134_open_refuted`, `C134_full_is_false` (P_Ms2) | **refuted**; the version 1 attempt panics when 4 xor the first byte xor its half exceeds the number of random bytes |
| C135 | Guarded text decoding accepts exactly what was written as text | reader.rs: try_resolve_wz_string_meta, resolve_wz_string_meta; ms/snow2_reader.rs: read_utf16_string; ms/chacha20_reader.rs: read_utf16_string | `C135_guarded`, `C135_archive_names` (P_Strict) | **proved**; UTF-16 bodies of even length (an odd length panics in chunks(2)) |
| C136 | A string key is accepted exactly if it has the right top bits | util/string_decryptor/mod.rs: verify_decryptor_from_wz_file, try_get_first_wz_name_meta_from_wz_file | `C136_key_accepted` (P_Guess) | **proved**; files below 2 GiB; first entry of type 3 or 4 |
| C137 | Guessing takes the first fitting key | util/string_decryptor/mod.rs: guess_decryptor_from_wz_file | `C137_first_fitting` (P_Guess) | **proved**; files below 2 GiB; first entry of type 3 or 4 |
| C138 | The right one of the standard keys is found | util/string_decryptor/mod.rs: guess_decryptor_from_wz_file | `C138_right_key_found` (P_Guess) | **proved**; real AES-256 evaluated for the few key bytes needed |
| C139 | EMS packages are recognised whatever their first name | util/string_decryptor/mod.rs: guess_decryptor_from_wz_file | `C139_short_sea_name_refuted` (P_Guess) | **refuted**; an EMS package whose first name is one character is taken for a GMS one; C138 is the true form |
| C140 | The right key is refused for a first name outside ASCII | util/string_decryptor/mod.rs: verify_decryptor_from_wz_file_with_meta; util/version/mod.rs: verify_iv_from_wz_file | `C140_foreign_name` (P_Guess) | **proved**; a behaviour users should know of; the wish is C141 |
| C141 | The key of every package under a standard key is found | util/string_decryptor/mod.rs: guess_decryptor_from_wz_file | `C141_key_found_refuted` (P_Guess) | **refuted**; for a GMS package with a Korean first name no key is found |
| C142 | An image file fits an IV exactly if it says Property under it | util/version/mod.rs: verify_iv_from_wz_img | `C142_image_accepted` (P_Guess) | **proved**; files below 2 GiB |
| C143 | An image file is opened exactly under the standard key it was written with | wz_image.rs: WzImage::from_file; util/version/mod.rs: guess_iv_from_wz_img | `C143_image_opened` (P_Guess) | **proved**; built-in AES user key; files below 2 GiB |
| C144 | Looking for a key never panics | util/string_decryptor/mod.rs; util/version/mod.rs | `C144_no_panic` (P_Guess) | **proved** |
| C145 | Opening an image file never panics | wz_image.rs: WzImage::from_file; util/version/mod.rs: guess_iv_from_wz_img | `C145_empty_image_refuted` (P_Guess) | **refuted**; without an IV an empty file panics (buf[0]); C144 covers all other files |
| C146 | Every kind of image can be opened from a file | wz_image.rs: WzImage::from_file, resolve_children | `C146_other_images_refuted` (P_Guess) | **refuted**; script (0x01) and text (0x23) images are refused with every IV and without one |
| C147 | The KMST 1198 key is found | util/string_decryptor/mod.rs: guess_decryptor_from_wz_file, try_get_first_wz_name_pkg2_meta_from_wz_file | `C147_package2_key_found` (P_Guess) | **proved**; files below 2 GiB |
| C148 | The KMST 1198 key is found for names of every length | util/string_decryptor/mod.rs: guess_decryptor_from_wz_file | `C148_short_package2_name_refuted` (P_Guess) | **refuted**; a package starting with "Mob.img" (7 characters) is taken for one with open names |
| C149 | A classic package is read back in full | file.rs: WzFile::from_file, parse, parse_pkg1 | `C149_classic_package` (P_File) | **proved**; built-in AES user key; files below 2 GiB; from the bytes of the file to the tree |
| C150 | A classic package opened without a version is never refused | file.rs: WzFile::from_file, parse, parse_pkg1 | `C150_classic_detection` (P_File) | **proved**; a smaller version may be taken (C68) |
| C151 | A package opened with the right IV is read back | file.rs: WzFile::from_file; util/string_decryptor/mod.rs: verify_decryptor_from_wz_file | `C151_right_iv_refuted` (P_File) | **refuted**; if the first name is not ASCII text the right IV is dismissed without notice and the names come out wrong; C149 is the true form |
| C152 | A package whose first entry stands elsewhere is read back | file.rs: WzFile::from_file; util/string_decryptor/mod.rs: try_get_first_wz_name_meta_from_wz_file | `C152_entry_elsewhere_refuted` (P_File) | **refuted**; the key check looks for the name two bytes off, dismisses the right IV and the names come out wrong |
| C153 | A package with 64-bit hashes is read back in full | file.rs: WzFile::from_file, parse_pkg2, try_pkg2_profile, update_keys; util/profile.rs | `C153_wide_package` (P_File) | **proved**; files below 2 GiB |
| C154 | A package with 64-bit hashes is read back whatever its entry count | file.rs: WzFile::from_file; util/string_decryptor/mod.rs: guess_decryptor_from_wz_file | `C154_unlucky_count_refuted` (P_File) | **refuted**; if the stored count looks like an entry a key is guessed from it and the package is refused; C153 is the true form |
| C155 | A package with 64-bit hashes is read back whatever its hash | file.rs: try_pkg2_profile, try_decode_with_wz_version_number | `C155_zero_hash_refuted` (P_File) | **refuted**; a package whose hash is 0 is refused; C153 is the true form |
| C156 | A package with 32-bit hashes is read back under a name key made of the hashes | file.rs: WzFile::from_file, parse_pkg2, try_pkg2_profile, update_keys; util/profile.rs | `C156_narrow_package` (P_File) | **proved**; files below 2 GiB |
| C157 | A package under the fixed name key is read back | file.rs: WzFile::from_file, parse_pkg2; util/string_decryptor/mod.rs: guess_decryptor_from_wz_file | `C157_fixed_key_package` (P_File) | **proved**; files below 2 GiB |
| C158 | A package under the fixed name key is read back whatever its first name | util/string_decryptor/mod.rs: guess_decryptor_from_wz_file; file.rs: WzFile::from_file | `C158_short_fixed_key_refuted` (P_File) | **refuted**; with a first name shorter than 8 the names are taken for names that are not enciphered and the package is refused |
| C159 | A profile with the wrong name key is refused | directory.rs: verify_string_decryptor; file.rs: try_pkg2_profile | `C159_name_check_key_blind`, `C159_wrong_name_key_refuted` (P_File) | **refuted**; the check gives the same answer for all keys; a package is read with wrong names |
| C160 | A file without a known header is refused | file.rs: WzFile::from_file, parse | `C160_no_header` (P_File) | **proved**; for any key streams |
| C161 | An accepted file is consistent | file.rs: WzFile::from_file, parse, parse_pkg1, parse_pkg2 | `C161_accepted_file` (P_File) | **proved**; for any key streams; versions below 1000000 |
| C162 | Simple JSON is a picture of the tree | node.rs: WzNode::to_simple_json; property/mod.rs: From<WzValue> for Value | `C162_simple_json_pictures`, `C162_simple_json_paths` (P_Json) | **proved**; against the relations pictures and plain of Spec/JsonView.v; the fields of a canvas give way to children of the same name (see C167) |
| C163 | When the simple JSON exists | node.rs: WzNode::to_simple_json; property/mod.rs: From<WzValue> for Value | `C163_simple_json_total` (P_Json) | **proved** |
| C164 | Exporting a readable image does not panic | property/mod.rs: From<WzValue> for Value | `C164_export_panics_refuted` (P_Json) | **refuted**; Number::from_f64(..).unwrap() panics on a stored NaN; the condition under which export returns is C163 |
| C165 | The JSON does not depend on hash order | node.rs: WzNode::to_simple_json; node.rs: WzNode::to_json, arc_node_serde | `C165_order_irrelevant` (P_Json) | **proved**; for exports that return; which error comes first may depend on the order |
| C166 | Simple JSON tells kinds apart | node.rs: WzNode::to_simple_json; property/mod.rs: From<WzValue> for Value | `C166_kinds_confused_refuted` (P_Json) | **refuted**; a vector looks like a sub-property with x and y, an empty sub-property like null, an Int like a Long |
| C167 | The size of a canvas is in the simple JSON | node.rs: WzNode::to_simple_json | `C167_canvas_size_hidden_refuted` (P_Json) | **refuted**; a child named width replaces the field |
| C168 | Full JSON is a record of the tree | node.rs: WzNode::to_json, arc_node_serde; object.rs: WzObjectType (serde) | `C168_full_json_records` (P_Json) | **proved** |
| C169 | When the full JSON exists | node.rs: WzNode::to_json, arc_node_serde; object.rs: WzObjectType (serde); property/mod.rs: WzValue (serde) | `C169_full_json_total` (P_Json) | **proved** |
| C170 | Every parsed image has a full JSON | node.rs: WzNode::to_json, arc_node_serde; property/mod.rs: WzValue (serde) | `C170_export_lost_refuted` (P_Json) | **refuted**; a script image cannot be exported; the exact condition is C169 |
| C171 | Full JSON round trip | node.rs: WzNode::to_json, arc_node_serde; object.rs: WzObjectType (serde); property/string.rs: Deserialize for WzString | `C171_json_roundtrip` (P_Json) | **proved**; nulls, non-finite floats, astral text and order are C172-C175; fields marked serde(skip) are not part of the model's objects |
| C172 | Null values survive the full JSON | object.rs: WzObjectType (serde); property/mod.rs: WzSubProperty, WzValue (serde) | `C172_null_changes_refuted` (P_Json) | **refuted**; {type: Null} is accepted by the catch-all variant of WzSubProperty, which is tried first |
| C173 | Floats survive the full JSON | object.rs: WzObjectType (serde) | `C173_float_changes_refuted` (P_Json) | **refuted**; NaN and infinities are written as null and come back as sub-properties |
| C174 | Texts survive the full JSON | property/string.rs: Deserialize for WzString; property/string.rs: WzString::from_str | `C174_text_changes_refuted` (P_Json) | **refuted**; the string is rebuilt by WzString::from_str, which miscounts astral characters (C49) |
| C175 | The order of children survives the full JSON | node.rs: WzNode::to_json, arc_node_serde | `C175_order_changes_refuted` (P_Json) | **refuted**; serde_json's map sorts the names |
| C176 | Unknown kinds are rejected | object.rs: WzObjectType (serde); property/mod.rs: WzSubProperty (serde other) | `C176_unknown_kind_refuted` (P_Json) | **refuted**; a node of unknown type without data becomes a sub-property |
| C177 | From stored bytes to simple JSON | wz_image.rs: WzImage::resolve_children; util/parse_property.rs; node.rs: WzNode::to_simple_json | `C177_image_json`, `C177_layout_json` (P_Json) | **proved**; before UOL nodes are replaced by their targets |
| C178 | JSON of linked nodes | node.rs: WzNode::to_simple_json; node.rs: WzNode::to_json, arc_node_serde | `C178_linked_tree_json` (P_Json) | **proved** |
| C179 | Exporting ends | node.rs: WzNode::to_simple_json; node.rs: WzNode::to_json, arc_node_serde; util/node_util.rs: resolve_uol | `C179_export_ends_refuted` (P_Json) | **refuted**; a UOL to an ancestor makes a cycle, on which both exports recurse for ever; true on finite trees by C178 |
| C180 | Damaged texts are reported | property/mod.rs: From<WzValue> for Value; property/string.rs: Serialize for WzString | `C180_damaged_text_refuted` (P_Json) | **refuted**; unwrap_or_default turns the read error into an empty text |
| C181 | A package directory becomes one tree | util/resolver.rs: resolve_root_wz_file_dir_full | `C181_assembled` (P_Resolve) | **proved**; By induction on the directory; the result is described without an order of visiting. |
| C182 | Listing order does not matter | util/resolver.rs: resolve_root_wz_file_dir_full | `C182_order` (P_Resolve) | **proved**; Both results meet the same orderless description, which fixes the tree. |
| C183 | Listing order never matters | util/resolver.rs: resolve_root_wz_file_dir_full | `C183_order_refuted` (P_Resolve) | **refuted**; the entry listed last wins, or the directory is left out. |
| C184 | Parents lead up to Base.wz | util/resolver.rs: resolve_base; util/resolver.rs: resolve_root_wz_file_dir_full | `C184_parents` (P_Resolve) | **proved**; Invariant of both loops, for every successful result. |
| C185 | Nothing is made up | util/resolver.rs: resolve_base; util/resolver.rs: resolve_root_wz_file_dir_full | `C185_sources` (P_Resolve) | **proved**; Invariant of both loops, for every successful result. |
| C186 | A tidy installation is complete | util/resolver.rs: resolve_base; util/resolver.rs: resolve_root_wz_file_dir_full | `C186_base` (P_Resolve) | **proved**; The first stage is C181; the loop over the installation keeps an invariant that says which entries are done. |
| C187 | A missing package is no accident | util/resolver.rs: get_root_wz_file_path; util/resolver.rs: resolve_base | `C187_missing_refuted` (P_Resolve) | **refuted**; try_exists is Ok(false) for a missing file, is_ok holds, and opening the file panics. |
| C188 | Other files are ignored | util/resolver.rs: resolve_root_wz_file_dir_full | `C188_stray_refuted` (P_Resolve) | **refuted**; a file notes_1.txt is taken for a piece, and opening it panics. |
| C189 | Pieces stay with their series | util/resolver.rs: resolve_root_wz_file_dir_full; util/resolver.rs: resolve_base | `C189_series_refuted` (P_Resolve) | **refuted**; with all packages in one directory, the nodes of Mob_1.wz appear in Map and in Base too. |
| C190 | Unreadable pieces are reported | util/resolver.rs: resolve_root_wz_file_dir_full | `C190_piece_error_refuted` (P_Resolve) | **refuted**; the result is that without the piece. |
| C191 | Any path to Base.wz will do | util/resolver.rs: resolve_base | `C191_paths_refuted` (P_Resolve) | **refuted**; Base.wz and Base/Base.wz as relative paths are errors, /Base.wz panics. |
| C192 | Packages come from the directory of their name | util/resolver.rs: resolve_base | `C192_backup_refuted` (P_Resolve) | **refuted**; a directory Map.bak panics, or takes the place of Map. |
| C193 | The full JSON of a stored image | node.rs: WzNode::to_json, arc_node_serde; property/mod.rs: WzValue, WzSubProperty; object.rs: WzObjectType | `C193_layout_full`, `C193_raw_none` (P_JsonStored) | **proved**; The property theorems give the parsed tree; induction on it against a relation between stored properties and JSON. |
| C194 | guess_iv_from_wz_file finds an IV | util/version/mod.rs: guess_iv_from_wz_file; util/version/mod.rs: verify_iv_from_wz_file | `C194_iv_found` (P_Guess2) | **proved**; The right IV is always accepted; the loop takes the first that is. |
| C195 | guess_iv_from_wz_file finds the right IV | util/version/mod.rs: guess_iv_from_wz_file | `C195_iv_right_refuted` (P_Guess2) | **refuted**; a first name that is not ASCII reads as some text under the open key. |
| C196 | A first entry that stands elsewhere | util/string_decryptor/mod.rs: try_get_first_wz_name_meta; util/string_decryptor/mod.rs: guess_decryptor_from_wz_file | `C196_entry_elsewhere` (P_Guess2) | **proved**; As C138, with the position of the name computed from the reference; C152 shows that it fails with a version field. |
| C197 | get_image follows the links | property/png.rs: get_image; util/node_util.rs: resolve_inlink; util/node_util.rs: resolve_outlink; property/string.rs: resolve_string_from_node | `C197_picture` (P_Picture) | **proved**; Induction on the chain of links, given as a relation on the tree; every lookup is the descent by the names of the link. |
| C198 | get_image reads what an outlink needs | property/png.rs: get_image; util/node_util.rs: resolve_outlink; node.rs: WzNode::at_path_parsed; node.rs: WzNode::parse | `C198_kept`, `C198_outlink_read` (P_Picture) | **proved**; Parsing changes no parsed node; so the names found on the way are found afterwards. |
| C199 | A canvas keeps its picture when its image is released | property/png.rs: get_image; node.rs: WzNode::unparse; util/walk.rs: walk_node | `C199_released_refuted` (P_Picture) | **refuted**; the image has no children then, the _inlink finds nothing, and without an error the canvas' own pixels are shown. |
| C200 | Links that cannot be followed are reported | property/png.rs: get_image; property/png.rs: WzPngParseError::LinkError; node.rs: WzNode::get_base_wz_file | `C200_dangling_refuted` (P_Picture) | **refuted**; with a package that is not called Base, an _outlink is silently ignored; LinkError is never made. |
| C201 | get_image ends | property/png.rs: get_image | `C201_circle_refuted` (P_Picture) | **refuted**; canvases linked in a circle; no number of steps is enough, the stack overflows. |
| C202 | A canvas with pixels has a picture | property/png.rs: get_image | `C202_own_pixels_refuted` (P_Picture) | **refuted**; a link to a node that is no canvas is an error, the canvas' own pixels are not tried. |
| C203 | get_image does not block | property/png.rs: get_image; util/node_util.rs: resolve_outlink; node.rs: WzNode::at_path_parsed | `C203_locks_up_refuted` (P_Picture) | **refuted**; if the link passes through the canvas itself, which is locked for reading, locking it for writing blocks or panics. |
| C204 | Slice functions read stored values | reader.rs: read_wz_string (free); reader.rs: read_wz_string_block (free); reader.rs: read_wz_int (free); reader.rs: read_string_by_len | `C204_free_string`, `C204_free_block`, `C204_free_numbers`, `C204_free_text` (P_FreeRead) | **proved** |
| C205 | Slice function and reader agree | reader.rs: read_wz_string (free); reader.rs: read_wz_string | `C205_free_and_reader` (P_FreeRead) | **proved** |
| C206 | Slice functions answer broken input with an error | reader.rs: read_wz_string (free); reader.rs: read_wz_string_block (free); reader.rs: read_string_by_len | `C206_free_no_panic_refuted` (P_FreeRead) | **refuted**; a string shorter than its length, an offset behind the end and a length behind the end panic; the reader method reports an error for the same bytes |
| C207 | Slice function and reader agree on negative lengths | reader.rs: read_unicode_string (free); reader.rs: read_unicode_string | `C207_negative_length_refuted` (P_FreeRead) | **refuted**; for the UTF-16 length -2^31+1 the method doubles it in i32 and reads one character, the slice function returns the empty text |
| C208 | Vector arithmetic | property/vector.rs: add; property/vector.rs: sub; property/vector.rs: mul; property/vector.rs: div | `C208_exact`, `C208_undone`, `C208_division` (P_Vector) | **proved**; release profile: i32 operators wrap |
| C209 | Vector arithmetic has the right sign | property/vector.rs: add; property/vector.rs: mul | `C209_overflow_refuted` (P_Vector) | **refuted**; release builds wrap silently (debug builds panic) |
| C210 | When vector division panics | property/vector.rs: div | `C210_division_panics` (P_Vector) | **proved** |
| C211 | Distance is symmetric | property/vector.rs: distance | `C211_symmetric`, `C211_self` (P_Vector) | **proved**; f64 as in Coq's SpecFloat (IEEE 754 binary64) |
| C212 | Distance is the distance | property/vector.rs: distance | `C212_distance_refuted` (P_Vector) | **refuted**; the ends of the axis, 4294967295 apart, are at distance 1 because the difference is taken in i32 |
| C213 | Sharing a decryptor is not seen | reader.rs:128-154; reader.rs:925-945; util/string_decryptor/mod.rs:190-246 | `C213_sharing_unseen` (P_BaseReader) | **proved** |
| C214 | What a reader encodes it decodes | reader.rs:253-260; property/string.rs:177-229; reader.rs:128-154 | `C214_encoded_decoded` (P_BaseReader) | **proved** |
| C215 | Names are decoded as encoded under one key | reader.rs:253-260; property/string.rs:216-227; reader.rs:120-127 | `C215_name_encoded_decoded` (P_BaseReader) | **proved** |
| C216 | Names are decoded as encoded by every reader | reader.rs:253-260; reader.rs:204-216; reader.rs:714-718 | `C216_name_encoded_decoded_refuted` (P_BaseReader) | **refuted**; encrypt_str uses the string key for names too, decoding uses the package-2 key; with_existing_keys of a package-2 key makes the string key plain. True under one key (C215). |
| C217 | The keys of a reader are those it was made with | reader.rs:181-216; reader.rs:241-251; reader.rs:285-314 | `C217_existing_keys`, `C217_with_iv`, `C217_new_plain`, `C217_slice_reader` (P_BaseReader) | **proved** |
| C218 | Decryptors asked for by type | util/string_decryptor/mod.rs:199-211 | `C218_asked` (P_BaseReader) | **proved** |
| C219 | Every decryptor type can be asked for | util/string_decryptor/mod.rs:199-211; util/string_decryptor/mod.rs:232-246 | `C219_custom_refuted` (P_BaseReader) | **refuted**; get_decryptor(Custom) unwraps a cell that nothing in the crate sets, and panics. True for the other types (C218). |
| C220 | The package-2 key of a new reader is its own | reader.rs:181-194; file.rs:371-382 | `C220_new_key_alone` (P_BaseReader) | **proved** |
| C221 | Decryptors of one hash have the same keys | util/string_decryptor/pkg2_decryptor.rs:29-52; util/string_decryptor/pkg2_decryptor.rs:67-69 | `C221_hash_refuted` (P_BaseReader) | **refuted**; the hash of a package-2 key is its lower 32 bits, but its fifth byte is part of the keys. True for IVs (C222). |
| C222 | The hash of a decryptor tells its IV | util/string_decryptor/ecb_decryptor.rs:68-70; util/string_decryptor/pkg2_decryptor.rs:67-69 | `C222_hash`, `C222_ivs_apart` (P_BaseReader) | **proved** |
| C223 | A package is its content | node.rs:174-229; node.rs:434-447; file.rs:74-214; directory.rs:113-331; wz_image.rs:151-220; util/parse_property.rs:29-406 | `C223_classic_content` (P_Whole) | **proved**; Linkless: images without UOL nodes; see C31, C86 for what those do. |
| C224 | A node found is found again | node.rs:174-229; node.rs:417-447 | `C224_found_again` (P_Whole) | **proved** |
| C225 | A 64-bit package 2 file is its content | node.rs:174-229; node.rs:434-447; file.rs:215-330; directory.rs:113-331; wz_image.rs:151-220 | `C225_wide_content` (P_Whole) | **proved** |
| C226 | Broken texts | reader.rs:100-154 | `C226_lossy` (P_Lossy) | **proved**; String::from_utf8_lossy and from_utf16_lossy are modelled after the documentation of the Rust standard library. |
| C227 | A forced walk tours the package | util/walk.rs:6-23; node.rs:174-248; node.rs:434-447; file.rs:74-214; directory.rs:113-331; wz_image.rs:151-220 | `C227_classic_tour` (P_Tour) | **proved**; World.v: heap of nodes with parse, unparse and walk over the bytes of the file. f is taken to change nothing. |
| C228 | A forced walk through a package with 64-bit hashes | util/walk.rs:6-23; node.rs:174-248; node.rs:434-447; file.rs:74-214; directory.rs:113-331; wz_image.rs:151-220; directory.rs: resolve_entry_pkg2_v64 | `C228_wide_tour` (P_Tour) | **proved** |
| C229 | Directories and images stay the same nodes | util/walk.rs:6-23; node.rs:174-248; node.rs:434-447; file.rs:74-214; directory.rs:113-331; wz_image.rs:151-220 | `C229_directories_stay` (P_Tour) | **proved** |
| C230 | Property nodes stay the same nodes | util/walk.rs:6-23; node.rs:174-248; node.rs:434-447; file.rs:74-214; directory.rs:113-331; wz_image.rs:151-220 | `C230_properties_stay_refuted` (P_Tour) | **refuted**; the forced walk drops the children of every image, also those that were read before it; a node a caller kept is then no longer in the tree, at_path finds nothing, and at_path_parsed makes a second node. Without forced walks it holds (C224). |
| C231 | When changing the IV takes effect | util/string_decryptor/ecb_decryptor.rs:64-67; util/string_decryptor/ecb_decryptor.rs:76-156 | `C231_set_iv` (P_SetIv) | **proved**; The block cipher is any oracle of 16 bytes to 16 bytes. |
| C232 | decrypt_slice without growing | util/string_decryptor/ecb_decryptor.rs:97-105 | `C232_decrypt_without_growing` (P_SetIv) | **proved** |
| C233 | Asking the version generator on | util/version/pkg2.rs: VersionGen Iterator::next | `C233_asking_on` (P_Chain) | **proved** |
| C234 | Newest client generation first | file.rs:215-303; util/profile.rs:48-137 | `C234_newest_first` (P_Generation) | **proved**; packages under the name key made of the hashes; hashes the search cannot find are excluded by an explicit condition (C13, C14) |
| C235 | Generation 1199 is never reported | file.rs:215-303; util/profile.rs:48-137 | `C235_never_1199` (P_Generation) | **proved** |
| C236 | Requested versions of any size | util/version/pkg1.rs:17-46; file.rs:152-200 | `C236_any_version` (P_Generation) | **proved** |
| C237 | The generation reported is the one that wrote the package | file.rs:215-303; util/profile.rs:48-137 | `C237_own_generation_refuted` (P_Generation) | **refuted**; a package of KMST 1199 is opened, but never as one of 1199; what holds instead is C234 |
| C238 | Everything in an archive is found by path | ms/file.rs:46-235; node.rs:124-133,174-229,434-447; ms/ms_image.rs:1-120 | `C238_archive_content` (P_Archive) | **proved**; the bytes are an archive by the layout of C120/C130; images without links (UOL) and not called .txt |
| C239 | Walking through an archive | ms/file.rs:46-235; node.rs:124-133,174-229,434-447; ms/ms_image.rs:1-120; util/walk.rs:6-23 | `C239_archive_tour` (P_Archive) | **proved**; the callback changes nothing |
| C240 | Images of an archive by name | ms/file.rs:46-235; node.rs:124-133,174-229,434-447; ms/ms_image.rs:1-120; node.rs:375-380 | `C240_archive_names` (P_Archive) | **proved** |
| C241 | Images of an archive by path | ms/file.rs:46-235; node.rs:124-133,174-229,434-447; ms/ms_image.rs:1-120 | `C241_paths_in_archives_refuted` (P_Archive) | **refuted**; entry names such as Mob/x.img contain slashes and become one node; at_path and at_path_parsed split them and find nothing, though the full path of the node is Ab/Mob/x.img (the true form for plain names is C238, for all names with `at` C240) |
| C242 | Everything in an image file is found by path | node.rs:138-165; wz_image.rs:83-116; node.rs:174-229,434-447 | `C242_image_file` (P_ImgFile) | **proved**; not called .txt; no links |
| C243 | Image files after walks | node.rs:138-165; wz_image.rs:83-116; node.rs:174-229,434-447; util/walk.rs:6-23 | `C243_image_file_again` (P_ImgFile) | **proved** |
| C244 | Lookups in image files after walks | node.rs:138-165; wz_image.rs:83-116; node.rs:174-229,434-447; util/walk.rs:6-23 | `C244_image_file_walked_refuted` (P_ImgFile) | **refuted**; the walk lets the image at the top go, and at_path_parsed does not parse the node it starts from, so nothing is found until it is parsed again (C243); in packages and archives, where the file at the top is not let go, lookups go on (C227, C239) |
| C245 | Packages without a version field | file.rs:73-213,324-362; node.rs:95-123,174-229,434-447 | `C245_unversioned_package` (P_Detect) | **proved**; first entry has an ASCII name standing in its place (of two characters or more under the Sea key) |
| C246 | Everything in a package without a version field | file.rs:73-213,324-362; node.rs:95-123,174-229,434-447; util/walk.rs:6-23 | `C246_unversioned_content` (P_Detect) | **proved**; property images not called .txt |
| C247 | Detection of the lowest fitting version | file.rs:73-213,324-362; node.rs:95-123,174-229,434-447 | `C247_lowest_version` (P_Detect) | **proved**; without the condition the version may be another (C68, C150) |
| C248 | Everything in a package whose version is detected | file.rs:73-213,324-362; node.rs:95-123,174-229,434-447; util/walk.rs:6-23 | `C248_lowest_version_content` (P_Detect) | **proved**; as C247 and C246 |
| C249 | Everything in a package with 32-bit counts | file.rs:73-213,324-362; node.rs:95-123,174-229,434-447; file.rs:215-322 | `C249_narrow_content` (P_Detect) | **proved**; a hash of another candidate may be taken if the tree can be read with it (C156, C234, C237) |
| C250 | Everything in a package with the fixed key | file.rs:73-213,324-362; node.rs:95-123,174-229,434-447; file.rs:215-322 | `C250_fixed_key_content` (P_Detect) | **proved**; shorter first names: C158 |
| C251 | Images with links | node.rs:174-229,434-447; util/node_util.rs: resolve_uol, get_resolved_uol_path; wz_image.rs:118-230 | `C251_linked_image` (P_Linked) | **proved**; siblings have different names that are not empty, have no slash and are not '..'; no link leads to or past another link (C83 says what happens then) |
| C252 | Images with links in archives | node.rs:174-229,434-447; util/node_util.rs: resolve_uol, get_resolved_uol_path; wz_image.rs:118-230; ms/ms_image.rs | `C252_linked_archive_image` (P_Linked) | **proved**; siblings have different names that are not empty, have no slash and are not '..'; no link leads to or past another link (C83 says what happens then) |
| C253 | Image files with links | node.rs:174-229,434-447; util/node_util.rs: resolve_uol, get_resolved_uol_path; wz_image.rs:118-230; node.rs:138-165; wz_image.rs:83-116 | `C253_linked_image_file` (P_Linked) | **proved**; siblings have different names that are not empty, have no slash and are not '..'; no link leads to or past another link (C83 says what happens then) |
| C254 | Pictures from a package | property/png.rs:55-81,182-209,278-330; util/node_util.rs:10-28; node.rs:174-229,434-447 | `C254_package_pictures` (P_Portrait) | **proved**; links in between (UOL) are left out; inlinks that go round are left out; the file is not called 'Base' (so no outlink applies); the decompressors are arbitrary functions; formats and sizes as in C34 |
| C255 | Pictures from a package with 64-bit hashes | property/png.rs:55-81,182-209,278-330; util/node_util.rs:10-28; node.rs:174-229,434-447 | `C255_wide_pictures` (P_Portrait) | **proved**; links in between (UOL) are left out; inlinks that go round are left out; the file is not called 'Base' (so no outlink applies); the decompressors are arbitrary functions; formats and sizes as in C34 |
| C256 | Pictures from an image file | property/png.rs:55-81,182-209,278-330; util/node_util.rs:10-28; node.rs:174-229,434-447; node.rs:138-165 | `C256_image_file_pictures` (P_Portrait) | **proved**; links in between (UOL) are left out; inlinks that go round are left out; the file is not called 'Base' (so no outlink applies); the decompressors are arbitrary functions; formats and sizes as in C34 |
| C257 | Sounds, raw data and videos from a package or image file | property/sound.rs:70-160; property/raw_data.rs:20-28; property/video.rs:20-28; node.rs:174-229,434-447 | `C257_package_data`, `C257_image_file_data` (P_Portrait) | **proved**; classic packages opened with their version, and image files; no UOL links |
| C258 | Pictures from a package called Base | property/png.rs:55-81,182-209,278-330; util/node_util.rs:10-28; node.rs:174-229,434-447 | `C258_base_views` (P_Outlook) | **proved**; links in between (UOL) are left out, as are inlinks and outlinks that go round, and outlinks that lead below a canvas being shown (a deadlock, C203); the decompressors are arbitrary functions; formats and sizes as in C34 |
| C259 | Pictures from a package with 64-bit hashes called Base | property/png.rs:55-81,182-209,278-330; util/node_util.rs:10-28; node.rs:174-229,434-447 | `C259_wide_base_views` (P_Outlook) | **proved**; links in between (UOL) are left out, as are inlinks and outlinks that go round, and outlinks that lead below a canvas being shown (a deadlock, C203); the decompressors are arbitrary functions; formats and sizes as in C34 |
| C260 | Pictures from an archive | property/png.rs:55-81,182-209,278-330; util/node_util.rs:10-28; ms/ms_image.rs:1-120; node.rs:124-133,174-229,434-447 | `C260_archive_pictures` (P_Album) | **proved**; names of images without a slash (C241 shows why); inlinks that go round are left out; outlinks never apply, since an archive is no file called 'Base'; the decompressors are arbitrary functions; formats and sizes as in C34 |
| C261 | Sounds, raw data and videos from an archive | property/sound.rs:70-160; property/raw_data.rs:20-28; property/video.rs:20-28; ms/ms_image.rs:1-120; node.rs:124-133,174-229,434-447 | `C261_archive_data` (P_Album) | **proved**; names of images without a slash (C241 shows why); no UOL links |
| C262 | Where asking for a picture waits for ever | property/png.rs:55-81; util/node_util.rs:10-28; node.rs:174-229,434-447,492-521 | `C262_base_blocked`, `C262_wide_base_blocked` (P_Blocked) | **proved**; C258 and C259 are the other side: without such an outlink the picture is given; waiting for ever is written Panic in the model; single caller |
| C263 | Links that go round never give a picture | property/png.rs:55-81; util/node_util.rs:10-28; node.rs:174-229,434-447,492-521 | `C263_base_round`, `C263_wide_base_round` (P_Blocked) | **proved**; the number of nested calls is the fuel; real code ends when its stack does; where an outlink goes on beyond a canvas of the set C262 says what happens |
| C264 | Given, waited for or sought without end | property/png.rs:55-81; util/node_util.rs:10-28; node.rs:174-229,434-447,492-521 | `C264_base_cases`, `C264_wide_base_cases` (P_Blocked) | **proved**; link texts with empty names (leading, trailing or double slashes) are left out by the hypothesis path_links |
| C265 | Classic packages whose images have links | node.rs:174-229; node.rs:434-447; util/node_util.rs: resolve_uol, get_resolved_uol_path; wz_image.rs:118-230; directory.rs:113-331; file.rs:74-214 | `C265_classic_links` (P_LinkPack) | **proved**; links of an image must be simple (what they name is found without going through another link, or not at all), names unique in each list, not empty and without slashes or '..'; images without links are free of these conditions; the relations gets and lacks are in Spec/WholeLinks.v |
| C266 | Packages with 64-bit hashes whose images have links | node.rs:174-229; node.rs:434-447; util/node_util.rs: resolve_uol, get_resolved_uol_path; wz_image.rs:118-230; directory.rs:113-331; file.rs:74-214 | `C266_wide_links` (P_LinkPack) | **proved**; links of an image must be simple (what they name is found without going through another link, or not at all), names unique in each list, not empty and without slashes or '..'; images without links are free of these conditions; the relations gets and lacks are in Spec/WholeLinks.v |
| C267 | Archives whose images have links | node.rs:174-229; node.rs:434-447; util/node_util.rs: resolve_uol, get_resolved_uol_path; wz_image.rs:118-230; ms/file.rs: parse; ms/ms_image.rs: to_wz_image | `C267_archive_links` (P_LinkPack) | **proved**; links of an image must be simple (what they name is found without going through another link, or not at all), names unique in each list, not empty and without slashes or '..'; images without links are free of these conditions; the relations gets and lacks are in Spec/WholeLinks.v; images whose name has a slash in it cannot be reached by a path (C240) |
| C268 | Packages of unknown version whose images have links | node.rs:174-229; node.rs:434-447; util/node_util.rs: resolve_uol, get_resolved_uol_path; wz_image.rs:118-230; directory.rs:113-331; file.rs:74-214 | `C268_unversioned_links`, `C268_lowest_version_links` (P_LinkPack) | **proved**; links of an image must be simple (what they name is found without going through another link, or not at all), names unique in each list, not empty and without slashes or '..'; images without links are free of these conditions; the relations gets and lacks are in Spec/WholeLinks.v |
| C269 | A forced walk through a classic package whose images have links | util/walk.rs: walk_node; node.rs:174-248; util/node_util.rs: resolve_uol, get_resolved_uol_path; wz_image.rs:118-230; directory.rs:113-331 | `C269_classic_link_tour` (P_LinkTour) | **proved**; links must be simple (see C265); depth is fuel, so the walk returns at some depth if and only if the lengths of the paths are bounded; a forced walk that meets a node it holds for reading (a link that goes round) deadlocks, written Panic, otherwise a link that goes round would run out of every fuel; the visitor changes nothing |
| C270 | A forced walk through a package with 64-bit hashes whose images have links | util/walk.rs: walk_node; node.rs:174-248; util/node_util.rs: resolve_uol, get_resolved_uol_path; wz_image.rs:118-230; directory.rs:113-331 | `C270_wide_link_tour` (P_LinkTour) | **proved**; links must be simple (see C265); depth is fuel, so the walk returns at some depth if and only if the lengths of the paths are bounded; a forced walk that meets a node it holds for reading (a link that goes round) deadlocks, written Panic, otherwise a link that goes round would run out of every fuel; the visitor changes nothing |
| C271 | A forced walk through an archive whose images have links | util/walk.rs: walk_node; node.rs:174-248; util/node_util.rs: resolve_uol, get_resolved_uol_path; wz_image.rs:118-230; ms/file.rs: parse; ms/ms_image.rs: to_wz_image | `C271_archive_link_tour` (P_LinkTour) | **proved**; links must be simple (see C265); depth is fuel, so the walk returns at some depth if and only if the lengths of the paths are bounded; a forced walk that meets a node it holds for reading (a link that goes round) deadlocks, written Panic, otherwise a link that goes round would run out of every fuel; the visitor changes nothing |
| C272 | A forced walk through a package of unknown version whose images have links | util/walk.rs: walk_node; node.rs:174-248; util/node_util.rs: resolve_uol, get_resolved_uol_path; wz_image.rs:118-230; directory.rs:113-331 | `C272_unversioned_link_tour`, `C272_lowest_version_link_tour` (P_LinkTour) | **proved**; links must be simple (see C265); depth is fuel, so the walk returns at some depth if and only if the lengths of the paths are bounded; a forced walk that meets a node it holds for reading (a link that goes round) deadlocks, written Panic, otherwise a link that goes round would run out of every fuel; the visitor changes nothing |
| C273 | A forced walk through a package ends | util/walk.rs: walk_node; node.rs:174-248; util/node_util.rs: resolve_uol, get_resolved_uol_path | `C273_walks_end_refuted` (P_LinkTour) | **refuted**; a well-formed package of version 83 has an image with a link to a node above it; the walk returns at no depth, in no order (it locks for writing a node it holds for reading). The true form is C269: it returns if and only if the paths are bounded. |
| C274 | A link is the node it leads to | node.rs:174-248; util/node_util.rs: resolve_uol, get_resolved_uol_path; node.rs: at_path_parsed; wz_image.rs:118-230; directory.rs:113-331; ms/file.rs: parse | `C274_package_one_node`, `C274_archive_one_node` (P_LinkEnd) | **proved**; links must be simple (see C265); packages: the kinds of C269, C270 and C272 |
| C275 | A forced walk returns or deadlocks, and which of the two is settled by the links | util/walk.rs: walk_node; node.rs:174-248; util/node_util.rs: resolve_uol, get_resolved_uol_path; node.rs: at_path_parsed; wz_image.rs:118-230; directory.rs:113-331; ms/file.rs: parse | `C275_package_ends_or_jams`, `C275_archive_ends_or_jams` (P_LinkEnd) | **proved**; links must be simple (see C265); packages: the kinds of C269, C270 and C272; deadlock is written Panic |
| C276 | Pictures from a package whose images have links | property/png.rs:55-81,182-209,278-330; util/node_util.rs: resolve_uol; util/node_util.rs:10-28; node.rs:174-248,434-447; wz_image.rs:118-230 | `C276_linked_pictures` (P_LinkPicture) | **proved**; links must be simple (see C265); pictures are described as in C254 (holds_picture); inlinks lead from the top of the image through its links, one that leads nowhere does not count |
| C277 | Sounds, raw data and videos from a package whose images have links | property/sound.rs:70-160; property/raw_data.rs:20-28; property/video.rs:20-28; util/node_util.rs: resolve_uol; node.rs:174-248,434-447 | `C277_linked_data` (P_LinkPicture) | **proved**; links must be simple (see C265) |
| C278 | Pictures from an image file with links | property/png.rs:55-81,182-209,278-330; util/node_util.rs: resolve_uol; util/node_util.rs:10-28; node.rs:174-248,434-447; wz_image.rs:118-230 | `C278_image_file_linked_pictures` (P_LinkPicture) | **proved**; links must be simple (see C265); pictures are described as in C254 (holds_picture); inlinks lead from the top of the image through its links, one that leads nowhere does not count; right after the file has been parsed, for later walks see C244 |
| C279 | Sounds, raw data and videos from an image file with links | property/sound.rs:70-160; property/raw_data.rs:20-28; property/video.rs:20-28; util/node_util.rs: resolve_uol; node.rs:174-248,434-447 | `C279_image_file_linked_data` (P_LinkPicture) | **proved**; links must be simple (see C265); right after the file has been parsed, for later walks see C244 |
| C280 | Pictures from an archive whose images have links | property/png.rs:55-81,182-209,278-330; util/node_util.rs: resolve_uol; util/node_util.rs:10-28; node.rs:174-248,434-447; wz_image.rs:118-230; ms/ms_image.rs:1-120 | `C280_archive_linked_pictures` (P_LinkAlbum) | **proved**; links must be simple (see C265); pictures are described as in C254 (holds_picture); inlinks lead from the top of the image through its links, one that leads nowhere does not count |
| C281 | Sounds, raw data and videos from an archive whose images have links | property/sound.rs:70-160; property/raw_data.rs:20-28; property/video.rs:20-28; util/node_util.rs: resolve_uol; node.rs:174-248,434-447; ms/ms_image.rs:1-120 | `C281_archive_linked_data` (P_LinkAlbum) | **proved**; links must be simple (see C265) |
| C282 | Walks that read nothing, over any file in any state | util/walk.rs:6-23; node.rs:174-248,434-447; util/node_util.rs:57-106 | `C282_unforced_walk` (P_Stroll) | **proved**; the callback is taken to change nothing; the children of a node are a map and nodes that are children stay alive, as in Rust |
| C283 | An unforced walk calls with what at_path finds | util/walk.rs:6-23; node.rs:174-248,434-447; util/node_util.rs:57-106; node.rs:424-432 | `C283_unforced_walk_is_at_path` (P_Stroll) | **proved**; a name with a slash is walked to, but at_path cannot name it |
| C284 | A forced walk lets every image it met go, whatever the file | util/walk.rs:6-23; node.rs:174-248; util/node_util.rs:57-106 | `C284_walk_lets_images_go` (P_Freed) | **proved**; the walk is one that returns; when it deadlocks or the recursion is too deep nothing is said; the callback is taken to change nothing |

## Print Assumptions

Each of the 370 theorems above is followed by `Print Assumptions` in its file; for every one of them Coq prints
`Closed under the global context`: none depends on any axiom, of the standard library or other.

(`coqchk -o`, which lists what the loaded libraries declare rather than what a theorem uses, names the seven
`Coq.ssr.ssrunder.Under_rel.*` parameters of the standard library; they come with the `zify`/`lia` imports and no
theorem uses them.)

## Which code is modelled

Lines of `/repo/src` cited by the definitions of each model file (the citation stands in the comment of the definition;
simplifications are stated there).

| source file | model file: lines |
|----|----|
| directory.rs | Directory.v: 25-26, 31-41, 43-53, 55-61, 63-81, 89-100, 113-150, 152-182, 184-223, 225-262, 264-288, 290-310, 323-332, 335-367, 369-412, 414-439, 441-490; File.v: 108-111, 312-320, 441-449; Json.v: 63-82; World.v: 66-81, 122-146, 451-479 |
| file.rs | Directory.v: 147-213, 324-362; File.v: 46-145, 187-212, 215-303, 305-322, 371-382; Json.v: 40-71; Resolver.v: 83, 235; VersionPkg1.v: 14, 107, 152-200, 331; World.v: 60-72, 110-132, 165, 187-190, 249-251, 279-281, 290-293 |
| header.rs | Guess.v: 26-42; Header.v: 7-24, 26-42, 52-56, 63-66, 73-83, 92-155, 157-188, 191-192, 196-214 |
| ms/chacha20_reader.rs | Ms.v: 11-14, 18-24, 27-39, 47-103 |
| ms/file.rs | Json.v: 32-43; Ms.v: 46-151, 153-233; World.v: 46-72, 143-150, 225-232 |
| ms/header.rs | Json.v: 30-47; Ms.v: 31-46, 49-132, 134-212 |
| ms/ms_image.rs | Json.v: 29-41; Ms.v: 12-39, 42-49, 52-58, 60-115, 117-197 |
| ms/snow2_decryptor.rs | Snow2.v: 3-27, 29-89, 187-478, 482-485, 487-492, 494-505, 508-518, 528-663, 665-698, 700-733, 735-738, 740-743, 745-748 |
| ms/snow2_reader.rs | Ms.v: 9-15, 18-26, 46-129 |
| ms/utils.rs | Ms.v: 2-5, 8-13 |
| node.rs | Directory.v: 174-229, 233-248; Image.v: 34-43, 376-378; Json.v: 34-43, 217-222, 224-226, 544-593, 605-618, 620-629; JsonHeap.v: 38, 544-546, 550-593, 605-618; Node.v: 36-44, 46, 174-229, 233-248, 253-256, 271-280, 296-313, 329-355, 376-378, 400-406, 424-432, 434-447, 465-473, 492-509, 512-514, 517-521, 524-539; Picture.v: 180-209, 439-443; Resolver.v: 91-96, 101, 217-222; World.v: 36-44, 56-70, 72-79, 92-113, 124-133, 138-165, 168-171, 174-229, 434-447; WorldPicture.v: 174-229, 439-443 |
| node_cast.rs | Node.v: 72; Picture.v: 94-100; WorldPicture.v: 94-100 |
| object.rs | Json.v: 22-35; Node.v: 25-35; World.v: 25-35 |
| property/lua.rs | Media.v: 36-57, 64, 66-80 |
| property/mod.rs | Json.v: 46-81, 85-108 |
| property/png.rs | Image.v: 128-145; Json.v: 128-148; Picture.v: 54-81; Png.v: 16, 49-51, 83-104, 106-126, 130-148, 172-174, 176-274, 278-287, 290-339, 342-390, 394-435, 438-487, 491-535, 537-574, 577-612, 657-666, 678-688, 700-716, 728-740, 743-769, 773-789, 792-808, 811-827, 830-857, 859-887; WorldPicture.v: 55-81, 128-170, 278-287, 864-873 |
| property/raw_data.rs | Media.v: 20-28 |
| property/sound.rs | Image.v: 28-33, 36-49, 63-69, 71-82; Json.v: 26-33, 35-49; Media.v: 51-61, 104-145, 147-158 |
| property/string.rs | Base.v: 197; BaseReader.v: 177-229; Json.v: 160-164, 233-244, 247-274; Picture.v: 160-164, 169-175; Reader.v: 23-29, 39-45, 48-98, 160-164; Utf.v: 118, 177-229; WorldPicture.v: 160-164, 169-175; WzStr.v: 110-138, 140-156, 160-164, 177-229 |
| property/vector.rs | Json.v: 7-9; Vector.v: 7-9, 15-19, 31-33, 39-41, 47-49, 55-57 |
| property/video.rs | Media.v: 20-28 |
| reader.rs | Base.v: 13-31, 233-239, 277-283, 317-330, 356-630, 634-714; BaseReader.v: 36-41, 66-73, 100-154, 181-201, 204-216, 241-251, 253-260, 264-281, 285-300, 309-314, 333-339, 708-718, 767-777, 925-945; Directory.v: 66-75; File.v: 183-216; FreeRead.v: 813-818, 820-831, 833-844, 846-855, 857-870, 872-892, 894-914; Guess.v: 184-187, 204-216, 285-300, 302; Keys.v: 925-945; Reader.v: 35-40, 66-75, 92-182, 341-343, 345-425, 427-433, 435-469, 471-478, 480-518, 520-530, 532-542, 544-555, 557-570, 572-580, 582-593, 595-606, 608-616, 618-630, 633-701, 708-712, 714-718, 721-765, 767-771, 773-777, 781-783, 785-787, 789-791, 793-795, 797-799, 801-803, 805-807, 809-811, 917-919, 921-923, 925-945; Utf.v: 139-182; World.v: 66-75, 182-200, 259-277; WzStr.v: 100-154, 204-216, 264-270, 925-945 |
| util/color.rs | Png.v: 11-17, 30-37 |
| util/maple_crypto_constants.rs | Media.v: 13-14 |
| util/node_util.rs | Node.v: 12-16, 20-28, 32-38, 41-53, 57-106, 109-143, 147-157; Picture.v: 20-25; World.v: 60-64; WorldPicture.v: 20-25 |
| util/offset.rs | Base.v: 68, 87, 91, 116, 142, 165; Directory.v: 28-33; Offset.v: 6, 8-16, 19-27, 56-71, 76-94, 100-119, 124-147, 151-168, 171-182 |
| util/parse_property.rs | Base.v: 12-25; Image.v: 29-60, 62-156, 159-178, 180-406, 409-504; Json.v: 206, 232, 293, 374; World.v: 39-57, 62-406 |
| util/profile.rs | File.v: 114-126; VersionPkg2.v: 8-18, 45-64, 67-112, 128-137; World.v: 114-126 |
| util/resolver.rs | Resolver.v: 7-18, 21-101, 112-180 |
| util/string_decryptor/ecb_decryptor.rs | Base.v: 66; BaseReader.v: 10-18, 64-70, 72-74, 76-81, 85-90, 93-95, 97-105, 107-156; Guess.v: 39-47, 72-74, 97-156; Keys.v: 10-18, 21-47, 64-67, 76-81, 85-90, 93-95, 97-105, 107-156; Media.v: 128, 146 |
| util/string_decryptor/mod.rs | BaseReader.v: 12, 29-39, 190-196, 199-230, 232-246; Guess.v: 16-26, 47-91, 93-121, 123-140, 142-148, 150-188, 212-222; Media.v: 190-195, 223-230, 233-247; World.v: 199-211, 241 |
| util/string_decryptor/pkg2_decryptor.rs | BaseReader.v: 5-9, 11-19, 29-52, 55-57, 59-62, 67-72, 74-76, 78-80, 82-86, 88-90; Guess.v: 5-9, 11-19, 55-57; Keys.v: 29-52, 82-86, 93-96, 98-100, 103-109 |
| util/version/mod.rs | Guess.v: 9-15, 17-23, 25-51, 71-79, 81-102, 106-169, 171-186; Header.v: 50-66 |
| util/version/pkg1.rs | VersionPkg1.v: 17-27, 29-46, 49-63 |
| util/version/pkg2.rs | VersionPkg2.v: 7-15, 33-51, 75-81, 101-130, 150-181, 201-217, 237-253, 275-277, 279-281, 296-308, 325-372, 376-431, 433-448 |
| util/walk.rs | Node.v: 6-23; World.v: 6-23 |
| wz_image.rs | Base.v: 8-28; Directory.v: 30-50, 225-234; Guess.v: 83-116; Image.v: 121-143, 151-213; Json.v: 52-65; Utf.v: 132; World.v: 66-78, 83-116 |

## Which code is not modelled

Functions no definition cites (tests left out).  Getters, constructors, conversions and formatting among them only pass
fields on and are inlined where they are used.

| source file | functions |
|----|----|
| directory.rs | hash_u32 (86-88), with_hash (103-106) |
| file.rs | update_wz_file_meta (364-369) |
| header.rs | try_from_ctx (46-48), hash2_u32 (59-61), get_header_slice (69-72), get_wz_fsize (85-87), get_wz_fstart (89-91) |
| ms/chacha20_reader.rs | read_u32 (40-46) |
| ms/snow2_decryptor.rs | with_key_32_and_iv (92-177), calc_iv (179-185), make_decrypt_slice (520-524) |
| ms/snow2_reader.rs | read_u32 (28-45) |
| node.rs | from (50-52), from_wz_file (114-119) |
| node_cast.rs | try_as_png (78-83), try_as_sound (85-90), is_convex (107-112), is_null (114-116) |
| node_name.rs | equivalent (20-22), from (27-29), from (34-36), deref (42-44), fmt (49-51), default (56-58), new (63-65), as_str (67-69), serialize (75-80) |
| object.rs | from (40-42), from (49-51), from (58-60) |
| property/lua.rs | new (28-34) |
| property/png.rs | expand_color_table (616-645), create_color_index_table (648-654), create_alpha_table_dxt3 (669-675), create_alpha_table_dxt5 (691-697), create_alpha_index_table_dxt5 (719-725) |
| property/raw_data.rs | new (13-19) |
| property/sound.rs | save (160-170) |
| property/string.rs | fmt (33-35), from_meta (101-108) |
| property/vector.rs | new (12-14), fmt (23-25) |
| property/video.rs | new (13-19) |
| reader.rs | default (47-62), create_header (218-223), get_ref_slice (225-227), get_slice (229-231), with_header (306-308) |
| util/color.rs | create (43-45), white (47-49), black (51-53), r (55-57), g (59-61), b (63-65), create_alpha (70-72), transparent (74-76), a (78-80), create (85-87), white (89-91), black (93-95), r (97-99), g (101-103), b (105-107) |
| util/maple_crypto_constants.rs | get_trimmed_user_key (17-26) |
| util/node_util.rs | parse_node (6-8) |
| util/offset.rs | hash_u32 (45-47) |
| util/profile.rs | fmt (21-23), default (35-42) |
| util/resolver.rs | resolve_root_wz_file_dir (104-109) |
| util/string_decryptor/ecb_decryptor.rs | get_range (49-51), is_enough (53-55), get_enc_type (59-62) |
| util/string_decryptor/mod.rs | need_init_key (42-44) |
| util/string_decryptor/pkg2_decryptor.rs | new_with_key (22-28), get_enc_type (64-66) |
| util/version/pkg1.rs | new (9-15) |
| util/version/pkg2.rs | is_u64_hash (29-31), new (71-73), get_iter (84-86), get_verifier (87-89), new (97-99), get_iter (133-135), get_verifier (136-138), new (146-148), get_iter (184-186), get_verifier (187-189), new (197-199), get_iter (220-222), get_verifier (223-225), new (233-235), get_iter (256-258), get_verifier (259-261), new (270-272), get_iter (285-287), get_verifier (288-290) |
| wz_image.rs | get_header_type (145-148) |
