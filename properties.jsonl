{"id": "C01", "title": "Compressed integers decode to the value that was written", "statement": "For every 32-bit integer v, if a buffer holds v at some position in the WZ compressed form (one signed byte when -127..127, otherwise the byte 0x80 followed by the little-endian i32), reading a wz-int at that position returns exactly v and leaves the cursor just behind the encoding; the 64-bit variant does the same for every i64.", "quantifier": "all i32 / i64 values, all prefixes and suffixes of the buffer", "why_tests_cant": "2^32 / 2^64 values times every surrounding buffer; a test samples a few and the boundary -128/0x80 marker is easy to miss", "anchors": ["src/reader.rs: Reader::read_wz_int, read_wz_int64, WzSliceReader", "src/reader.rs: read_wz_int_at"]}
{"id": "C02", "title": "Fixed-width reads succeed exactly when the bytes are there", "statement": "For every buffer, position and integer width, the random-access read returns the little-endian value of the bytes at that position if and only if the whole field lies inside the buffer, otherwise an error (never a panic or a partial value); the cursor form returns the same thing as the random-access form at the cursor, and moves the cursor by the width.", "quantifier": "all buffers, positions (including past the end) and widths u8,i8,u16,i16,u32,i32,u64,i64", "why_tests_cant": "bounds behaviour has to hold at every position of every buffer, including lengths where pos+width overflows the end by one", "anchors": ["src/reader.rs: Reader::read_u8_at .. read_i64_at, WzSliceReader::read_u8 .. read_i64"]}
{"id": "C03", "title": "Following a string offset never disturbs the sequential cursor", "statement": "Reading a string block whose tag says the text lives elsewhere (tags 0x01 / 0x1B) leaves the cursor exactly 5 bytes further (tag + 4-byte offset), whatever the target offset is and whether or not the text at the target can be read.", "quantifier": "all buffers, cursors, base offsets and stored offsets, including ones pointing outside the buffer", "why_tests_cant": "depends on save/restore being done on every path (success and each error path) for arbitrary hostile offsets", "anchors": ["src/reader.rs: WzSliceReader::read_wz_string_block, read_wz_string_at_offset, read_wz_string_block_meta, read_wz_string_meta_at"]}
{"id": "C04", "title": "Lazy strings equal eager strings", "statement": "Recording only the metadata of a string (offset, length, encoding) and resolving it later gives the same text as reading the string on the spot, and both move the cursor by the same amount, for every buffer and every key.", "quantifier": "all buffers, cursors, and string keys", "why_tests_cant": "the two code paths compute offset/length separately; agreement over all length encodings and all keys is a universal statement", "anchors": ["src/reader.rs: read_wz_string, read_wz_string_meta, Reader::resolve_wz_string_meta", "src/property/string.rs: WzString::get_string"]}
{"id": "C05", "title": "String encoder and decoder are inverse on BMP text", "statement": "Encrypting a text with a given IV into a string object and reading it back with the same IV returns the original text, for every text made of Unicode scalar values below U+10000 (ASCII or not) and every IV.", "quantifier": "all BMP texts shorter than 2^31 characters, all IVs, all block ciphers", "why_tests_cant": "infinitely many texts and keys; characters outside the BMP take a different number of code units than characters, which sampled tests do not contain", "anchors": ["src/property/string.rs: WzString::from_str, from_str_pkg2_dir, encrypt_str, resolve_string_from_node", "src/reader.rs: resolve_ascii_raw, resolve_unicode_raw"]}
{"id": "C06", "title": "The keystream does not depend on who asked first", "statement": "The key byte used at index i is a function of the IV (and AES key) only: whatever sequence of sizes was requested before, growing the key buffer never changes a byte already produced, and after asking for n bytes at least n bytes are available.", "quantifier": "all IVs, all AES keys, all sequences of size requests, all indices", "why_tests_cant": "the buffer is shared between threads and images and grows by history; a test sees one history", "anchors": ["src/util/string_decryptor/ecb_decryptor.rs: EcbDecryptor::ensure_key_size, at"]}
{"id": "C07", "title": "Stream decryption is an involution and position-addressed", "statement": "Decrypting a block of data twice from the same key index gives the data back; decrypting a slice in place changes byte j only by XOR with key byte start+j and keeps its length; so cutting a block into pieces decrypted at their own index equals decrypting it whole.", "quantifier": "all data, all start indices, all IVs (including the zero IV, where it must be the identity), both decryptor families", "why_tests_cant": "universal over data, split points and keys", "anchors": ["src/util/string_decryptor/ecb_decryptor.rs: decrypt_slice", "src/util/string_decryptor/pkg2_decryptor.rs: decrypt_slice"]}
{"id": "C08", "title": "Directory entry offsets are decoded without loss", "statement": "For each supported offset scheme, for fixed header data, version hash and position, the map from the stored (encrypted) 32-bit offset to the real offset is a bijection on 32-bit values: two different stored values never denote the same place, every place is representable, and the result is always a 32-bit value.", "quantifier": "all 2^32 stored offsets, all positions, hashes, header start values, five schemes", "why_tests_cant": "2^128 input combinations", "anchors": ["src/util/offset.rs: WzOffsetMeta / calculate_offset variants"]}
{"id": "C09", "title": "Version guessing for classic packages is sound and complete", "statement": "For a package whose header carries the obfuscated version number e, the guesser yields, in increasing order, precisely those patch versions 1..2000 whose hash obfuscates to e or whose number is literally e, each with its own hash; in particular the version the file was made with is always among them. An explicitly requested version is used with its own hash under the same condition and rejected otherwise.", "quantifier": "all patch versions in range and all header values", "why_tests_cant": "requires reasoning on the hash of every version and every header value; false positives are normal (8-bit check)", "anchors": ["src/util/version/pkg1.rs: Pkg1VersionGen / check_and_get_version_hash, calculate_version_hash"]}
{"id": "C10", "title": "Packages without a version field can be opened for every client generation in the scan range", "statement": "When the header has no version field the opener tries version numbers 770 to 780; for each of these, a package made with that version is found.", "quantifier": "all versions in the advertised scan range", "why_tests_cant": "needs a file of each version; the check that rejects all but the first candidate is invisible when only one version is tested", "anchors": ["src/file.rs: WzFile::parse_pkg1", "src/util/version/pkg1.rs: check_and_get_version_hash"]}
{"id": "C11", "title": "Package-2 hash recovery (direct schemes) has exactly one answer", "statement": "For the schemes whose version hash is computed in closed form (V1 and V6), for every pair of header hashes the returned candidate satisfies the scheme's header equation and no other 32-bit hash does.", "quantifier": "all 2^64 pairs of header hashes", "why_tests_cant": "2^64 inputs; uniqueness is a statement about all other 2^32 hashes too", "anchors": ["src/util/version/pkg2.rs: V1, V6 generators, Pkg2Profile::verify_hash"]}
{"id": "C12", "title": "Package-2 hash recovery (bit search) only returns valid hashes", "statement": "Every candidate yielded by the back-tracking schemes V2 and V3 is a 32-bit value satisfying the scheme's header equation.", "quantifier": "all 2^64 pairs of header hashes", "why_tests_cant": "search over 2^32 candidates per input", "anchors": ["src/util/version/pkg2.rs: backtrack, V2, V3"]}
{"id": "C13", "title": "Package-2 hash recovery (bit search) never loses the true hash", "statement": "For every version hash v, if the header was produced from v by the scheme's equation then v is among the candidates yielded by V2 / V3.", "quantifier": "all 2^32 version hashes and 2^32 first header hashes", "why_tests_cant": "pruning is decided bit by bit; a wrong pruning rule loses only some inputs", "anchors": ["src/util/version/pkg2.rs: backtrack, V2, V3"]}
{"id": "C14", "title": "Package-2 hash recovery (exhaustive schemes) returns exactly the solutions below 2^32-1", "statement": "For the brute force schemes (V4, V5) the yielded candidates are exactly the hashes 0..2^32-2 that satisfy the scheme's equation, each once.", "quantifier": "all 2^32 candidates and all header hash pairs", "why_tests_cant": "a run takes 2^32 steps; the exclusive end of the range is only visible for one value", "anchors": ["src/util/version/pkg2.rs: brute_force_hash, V4, V5"]}
{"id": "C15", "title": "Chained version generators try all candidates", "statement": "Iterating over the combined generator visits the candidates of every scheme in the chain.", "quantifier": "all header hash pairs", "why_tests_cant": "whether one scheme is empty depends on the header; a for-loop stops at the first None", "anchors": ["src/util/version/pkg2.rs: VersionGen Iterator::next"]}
{"id": "C16", "title": "Opening arbitrary header bytes is total", "statement": "Reading a package header from any byte sequence returns a header or an error, never reads outside the buffer, and a returned header has the magic, size, start and copyright that stand at the documented positions.", "quantifier": "all byte sequences, including truncated ones", "why_tests_cant": "every truncation length and every length field value", "anchors": ["src/header.rs: WzHeader::read_from_buf, get_header, get_encrypted_version"]}
{"id": "C17", "title": "An extended property is framed by its size field", "statement": "While parsing a property list, siblings following an extended property are parsed from the position given by its size field, regardless of the bytes inside the extended property (as long as the payload does not abort the list).", "quantifier": "all payloads, all sizes", "why_tests_cant": "every payload content", "anchors": ["src/util/parse_property.rs: parse_property_node (type 9), parse_property_list"]}
{"id": "C18", "title": "Image content round trip", "statement": "For every finite tree of properties (null, short, int, long, float, double, string, UOL, vector, sub-property, convex of these, with in-range values and encodable names), serialising it in the WZ image layout and parsing the image returns the same tree in the same order. More generally any list laid out as the format prescribes, also with names given by reference and with canvases, sounds, raw data and videos, is parsed to that tree with the cursor at the end of the list.", "quantifier": "all finite trees, all keys, all buffer prefixes/suffixes", "why_tests_cant": "infinitely many trees", "anchors": ["src/util/parse_property.rs: parse_property_list, parse_property_node, parse_extended_prop, parse_more", "src/wz_image.rs: WzImage::resolve_children"]}
{"id": "C19", "title": "Direct access agrees with full parsing", "statement": "For any image bytes that parse, with unique sibling names along the way: asking directly for a path through sub-properties returns the same node as parsing the whole image and then walking the path.", "quantifier": "all image bytes, all existing paths", "why_tests_cant": "two separate parsers have to agree on every tree and path", "anchors": ["src/util/parse_property.rs: get_node, parse_property_list", "src/wz_image.rs: WzImage::at_path"]}
{"id": "C20", "title": "Direct access reports a missing component", "statement": "Asking directly for a path whose component does not exist in its list yields 'node not found'.", "quantifier": "all well-formed images, all paths with a missing component at any level", "why_tests_cant": "the result depends on bytes lying behind the list; a test with a missing last component passes", "anchors": ["src/util/parse_property.rs: get_node"]}
{"id": "C21", "title": "Parsing arbitrary image bytes returns", "statement": "Parsing a property list from any bytes terminates and returns a value or an error (no panic); each property consumes at least one byte so the work is bounded by the data.", "quantifier": "all byte sequences, all offsets", "why_tests_cant": "hostile counts and sizes; the panicking inputs are specific", "anchors": ["src/util/parse_property.rs: parse_property_list, parse_more"]}
{"id": "C22", "title": "Directory listing round trip", "statement": "For every tree of directories and images, a classic package whose directory blocks (inline or referenced names, skipped entries, empty directories) store sizes and offsets encrypted for the version hash is read back as the same tree with the same names, sizes and real offsets; opening it with its version number gives that tree and hash.", "quantifier": "all directory trees of any depth and width, hashes, keys, positions, start offsets; buffers below 2 GiB", "why_tests_cant": "infinitely many listings; offsets depend on the position of each entry", "anchors": ["src/directory.rs: WzDirectory::resolve_children, resolve_entry_pkg1, read_pkg1_entry, calculate_offset_and_verify", "src/file.rs: WzFile::parse_pkg1, try_decode_with_wz_version_number"]}
{"id": "C23", "title": "Opening a package terminates", "statement": "Parsing the directory tree of a package file terminates for every file content.", "quantifier": "all file contents, including directories whose entries point back at an ancestor", "why_tests_cant": "only cyclic files show it", "anchors": ["src/directory.rs: WzDirectory::resolve_children"]}
{"id": "C24", "title": "Unparse followed by parse restores a node's children", "statement": "After a node has been parsed, unparse() and parse() again give the same children as before (for file, directory and image nodes).", "quantifier": "all nodes of kind file, directory, image", "why_tests_cant": "depends on state left behind by the first parse for each kind", "anchors": ["src/node.rs: WzNode::parse, unparse", "src/directory.rs: WzDirectory::resolve_children, prepare_entries"]}
{"id": "C25", "title": "A node's full path leads back to it", "statement": "In every tree whose parent pointers agree with the children and whose names are non-empty and without '/', looking up from the root the path get_path_from_root gives for a node below the root returns that node; the full path is the root's name followed by that path, and full paths of different nodes differ.", "quantifier": "all trees, all nodes", "why_tests_cant": "infinitely many shapes", "anchors": ["src/node.rs: WzNode::get_full_path, get_path_from_root, at_path"]}
{"id": "C26", "title": "Relative lookup undoes descent", "statement": "From any node reached by descending path p, '..' repeated |p| times returns to the start; a relative path of '..'-steps followed by names is the lookup of the names from the ancestor; '..' beyond the root is 'not found'.", "quantifier": "all trees, nodes, paths", "why_tests_cant": "infinitely many", "anchors": ["src/node.rs: at_relative, at_path_relative, filter_parent"]}
{"id": "C27", "title": "Moving children merges by name", "statement": "Transferring the children of one tree to another: afterwards a path leads, from the target, where it led before if it led anywhere, otherwise to what it led to from the source (so for a child of the same name the target's node stays and the contents are merged recursively); the source has no children left; names and objects of all nodes and all other nodes are unchanged; and if every child had its owner as parent before, every child of the target has so afterwards.", "quantifier": "all pairs of disjoint finite trees", "why_tests_cant": "all overlaps of names", "anchors": ["src/node.rs: WzNode::transfer_childs", "src/util/node_util.rs: resolve_childs_parent"]}
{"id": "C28", "title": "Walking visits every node exactly once, parents first", "statement": "walk_node without parsing calls the visitor exactly once for each node of a finite tree, a parent before its children, and changes nothing; with parsing enabled, every image that was visited is left unparsed and without children.", "quantifier": "all finite trees", "why_tests_cant": "all shapes", "anchors": ["src/util/walk.rs: walk_node"]}
{"id": "C29", "title": "UOL path resolution normalises relative paths", "statement": "For a link that can be followed step by step from its parent, the resolved path is the path from the root of the node those steps lead to, and looking it up gives that node; in every resolved path '..' can only be the first component.", "quantifier": "all trees, links and paths", "why_tests_cant": "all combinations of components", "anchors": ["src/util/node_util.rs: get_resolved_uol_path"]}
{"id": "C30", "title": "UOL resolution replaces links by their targets and touches nothing else", "statement": "Resolving a link whose steps lead to a node replaces exactly the link's slot in its parent by that node, a link that leads nowhere changes nothing, and parsing an image adds the children read and otherwise touches only the slots of links.", "quantifier": "all trees, links, with or without an image being parsed", "why_tests_cant": "aliasing between links, chains", "anchors": ["src/util/node_util.rs: resolve_uol"]}
{"id": "C31", "title": "Finding the image on a path", "statement": "For a path with one '.img', at the end of a component and not of the path, the image lookup returns the node reached by the components up to it with the remaining path; for a path without '.img' it returns the first image on the way down with the (non-empty) remaining path, and nothing if there is no image.", "quantifier": "all trees, all such paths", "why_tests_cant": "specific path shapes only", "anchors": ["src/util/node_util.rs: get_image_node_from_path"]}
{"id": "C32", "title": "Pixel format expansion is the standard bit expansion", "statement": "Each pixel of the 4444 / 1555 / 565 / 8888 formats is the standard widening (bit replication) of its own stored number, wherever it lies in the picture; the end values map to 0 and 255, widening is monotone, and the picture determines the stored bytes.", "quantifier": "all canvases of these formats: every size, data, storage form", "why_tests_cant": "exhaustive over formats and positions in the buffer", "anchors": ["src/util/color.rs", "src/property/png.rs: WzPng::extract_png, get_image_from_*"]}
{"id": "C33", "title": "Block compressed pictures decode every pixel from its own block", "statement": "For DXT3 / DXT5 pictures whose width is a multiple of four, pixel (x,y) of the result is the pixel (x mod 4, y mod 4) of block (x/4, y/4) as laid out by the format.", "quantifier": "all widths that are multiples of 4, all heights, positions, data", "why_tests_cant": "widths that are not a multiple of four are needed to see a wrong stride", "anchors": ["src/property/png.rs: get_pixel_data_dxt3, get_pixel_data_dxt5 (DXT grid iteration)"]}
{"id": "C34", "title": "Form-517 images expand each stored pixel to a 16x16 square", "statement": "For width and height multiples of 16, pixel (x,y) of the result is the stored pixel (x/16, y/16).", "quantifier": "all such sizes, data, positions", "why_tests_cant": "all positions", "anchors": ["src/property/png.rs: get_pixel_data_form_517"]}
{"id": "C35", "title": "Encrypted image data is reassembled block by block", "statement": "Raw image data stored as a list of length-prefixed blocks is returned as the concatenation of the decrypted blocks, each decrypted from key index 0; the plain zlib form is returned unchanged.", "quantifier": "all block lists, keys", "why_tests_cant": "all block partitions", "anchors": ["src/property/png.rs: WzPng::get_raw_data / extract"]}
{"id": "C36", "title": "WAV export prepends a correct 44-byte header", "statement": "For PCM sounds, the exported buffer is a 44-byte RIFF header whose size fields equal the data length and data length + 36, followed by the unchanged data; writing to a stream and getting the buffer give the same bytes.", "quantifier": "all sounds with data length below 2^32-36", "why_tests_cant": "all lengths/headers", "anchors": ["src/property/sound.rs: WzSound::get_buffer, write_to, get_wav_header"]}
{"id": "C37", "title": "Lua script decoding does not reject a script decodable with a known key", "statement": "If a script decrypts to valid UTF-8 under one of the known IVs then extraction with guessing succeeds.", "quantifier": "all scripts", "why_tests_cant": "a multi-byte character straddling the probe boundary is required", "anchors": ["src/property/lua.rs: extract_lua, get_mtb_keys_from_guess_lua_iv"]}
{"id": "C38", "title": "Snow2 decryption inverts Snow2 encryption", "statement": "For every 16-byte key and all data, decryption recovers what was hidden by adding the key stream to its little-endian words; a rest of fewer than four bytes is left as it is and its length returned; a second call continues where the first stopped.", "quantifier": "all keys, all data, all splits at word boundaries", "why_tests_cant": "infinitely many", "anchors": ["src/ms/snow2_decryptor.rs: Snow2Decryptor::new, decrypt_slice, decrypt_block"]}
{"id": "C39", "title": "Buffered Snow2 reading equals decrypting the whole stream", "statement": "Any sequence of integer, string and byte reads of even length through the Snow2 reader returns consecutive pieces of the decrypted stream, independent of how it is cut into reads.", "quantifier": "all keys, offsets, read sequences of even lengths below 2^31, all data", "why_tests_cant": "the 4-byte alignment buffer has a state machine with history", "anchors": ["src/ms/snow2_reader.rs: read_i32, write_bytes_to, read_utf16_string ..."]}
{"id": "C40", "title": "Pieces come back from a ChaCha20 stream in order", "statement": "Numbers, texts and bytes written one after the other into a ChaCha20 stream come back in order from the same sequence of reads, where the block counter of the stream starts again at 0 after each piece that ends on a 64-byte boundary, and the data goes on behind the stream for at least the longest piece.", "quantifier": "all piece lists, keys, nonces, positions, block functions", "why_tests_cant": "the 64-byte buffer has history", "anchors": ["src/ms/chacha20_reader.rs: apply_keystream, read_i32, read_utf16_string, read_bytes"]}
{"id": "C41", "title": "Images of MS archives are placed on 1024-byte boundaries", "statement": "The data area starts at the first 1024-byte boundary at or after the end of the entry table (padded to whole cipher words), and each entry's offset is that plus its stored block index times 1024, its length its stored aligned size.", "quantifier": "all version 1 tables of well-formed entries", "why_tests_cant": "all table sizes", "anchors": ["src/ms/file.rs: parse_v1"]}
{"id": "C42", "title": "A property that cannot be understood keeps its own name", "statement": "When an extended property has an unknown type, the null node that stands for it is registered in the list under the property's own name, at any nesting.", "quantifier": "all lists, all unknown type names, at any nesting", "why_tests_cant": "needs an unknown type nested in a convex", "anchors": ["src/util/parse_property.rs: parse_property_node, parse_more"]}
{"id": "C43", "title": "Duplicate names: direct access and full parse pick the same node", "statement": "When a list contains the same name more than once, direct access and full parse return the same property.", "quantifier": "all lists", "why_tests_cant": "malformed lists only", "anchors": ["src/util/parse_property.rs: get_node", "src/node.rs: WzNode::parse"]}
{"id": "C44", "title": "Package-2 directory names decode to the text that was encoded", "statement": "Building a package-2 directory name from a text of scalar values below U+10000 and reading it back returns the same text.", "quantifier": "all BMP texts shorter than 2^31 characters", "why_tests_cant": "all keys", "anchors": ["src/util/string_decryptor/pkg2_decryptor.rs", "src/reader.rs: resolve_pkg2_dir_raw"]}
{"id": "C45", "title": "Images of MS v1 archives are decrypted over their whole length", "statement": "For an MS v1 entry, the first 1024 bytes of the image are decrypted twice and the remainder once under the key made of salt, name and entry key; the result is the image, cut to the entry's size.", "quantifier": "all entries, all images", "why_tests_cant": "all sizes around 1024", "anchors": ["src/ms/ms_image.rs: to_wz_image_v1"]}
{"id": "C46", "title": "Decoded pictures have the announced size", "statement": "For each supported pixel format, data of the size announced for the format decode to a picture of exactly width*height pixels, and the announced size is what the format takes.", "quantifier": "all formats except 3, all widths and heights below the 32-bit limit, all data", "why_tests_cant": "all sizes, including ones not multiple of the block size", "anchors": ["src/property/png.rs: get_buff_size, From<..> for RgbaImage"]}
{"id": "C47", "title": "Changing the IV gives the key stream of the new IV", "statement": "After set_iv on a decryptor, key bytes are those of the new IV.", "quantifier": "all old and new IVs, all earlier uses", "why_tests_cant": "the failure needs a particular history: the decryptor must have been used before the IV is changed", "anchors": ["src/util/string_decryptor/ecb_decryptor.rs: EcbDecryptor::set_iv"]}
{"id": "C48", "title": "Asking a single key byte never panics", "statement": "For every IV and every index, asking the decryptor for the key byte at that index returns a byte.", "quantifier": "all IVs and indexes", "why_tests_cant": "the failing IV is one of 2^32 (the one that means no encryption)", "anchors": ["src/util/string_decryptor/ecb_decryptor.rs: EcbDecryptor::at"]}
{"id": "C49", "title": "String encoder and decoder are inverse on all Unicode text", "statement": "As C05 and C44 but for every Unicode text, including characters above U+FFFF.", "quantifier": "all Unicode texts, all IVs", "why_tests_cant": "tests use BMP text; the failing inputs are exactly the supplementary planes", "anchors": ["src/property/string.rs: WzString::from_str", "src/property/string.rs: encrypt_str, from_str_pkg2_dir"]}
{"id": "C50", "title": "A cached version hash is accepted for another file exactly if it fits", "statement": "Re-using a known profile and hash for another package accepts exactly the hashes that satisfy the profile's header equation for that package, and every hash generated for a package is accepted for it.", "quantifier": "all seven profiles, all 64-bit header hash pairs and version hashes", "why_tests_cant": "The hash space is 2^64 per profile; tests use a handful of real headers.", "anchors": ["src/util/profile.rs: Pkg2Profile::verify_hash, get_hash_iter"]}
{"id": "C51", "title": "Version field detection", "statement": "For a classic package whose first directory has 1 <= n < 2^31 entries: if the content starts with a version field 0..255 it is detected with its value; if there is no version field and n is below 128 or not a multiple of 256, no version field is reported.", "quantifier": "all contents, entry counts, entry types and version values", "why_tests_cant": "The heuristics look at raw bytes; only a few real files are available as tests.", "anchors": ["src/header.rs: WzHeader::get_encrypted_version"]}
{"id": "C52", "title": "A missing version field is always recognised", "statement": "A classic package without version field is recognised as such whatever the number of entries of its root directory.", "quantifier": "all entry counts 1..2^31-1 and all contents", "why_tests_cant": "Needs a package with a multiple of 256 entries in the root directory.", "anchors": ["src/header.rs: WzHeader::get_encrypted_version"]}
{"id": "C53", "title": "Only versions whose hash fits the header are offered", "statement": "Every version offered for a classic package with version field e has a hash that obfuscates to e.", "quantifier": "all header fields and versions in range", "why_tests_cant": "The exception concerns version numbers equal to the obfuscated field, which tests do not hit.", "anchors": ["src/util/version/pkg1.rs: check_and_get_version_hash"]}
{"id": "C54", "title": "The version of a package without version field can be given explicitly", "statement": "When a package has no version field and the user passes its patch version, that version and its hash are used.", "quantifier": "all patch versions 0..999999", "why_tests_cant": "Needs 64-bit client files of several versions.", "anchors": ["src/file.rs: WzFile::parse_pkg1", "src/util/version/pkg1.rs: check_and_get_version_hash"]}
{"id": "C55", "title": "Exhaustive hash search covers all 32-bit hashes", "statement": "For V4 and V5 every 32-bit hash satisfying the scheme's equation is yielded.", "quantifier": "all 2^32 hashes and header hash pairs", "why_tests_cant": "The search takes seconds per pair and only one value of 2^32 is affected.", "anchors": ["src/util/version/pkg2.rs: brute_force_hash"]}
{"id": "C56", "title": "Exact result set of the bit search", "statement": "The V2 / V3 bit search yields exactly the 32-bit solutions of the scheme's equation whose rotation amount is non-zero, plus the solution 0.", "quantifier": "all 2^64 header hash pairs and all 2^32 hashes", "why_tests_cant": "2^96 combinations; the search is a pruned recursion whose correctness depends on carry bits.", "anchors": ["src/util/version/pkg2.rs: backtrack, V2, V3"]}
{"id": "C57", "title": "Chained version generators, the part that holds", "statement": "If the V3 and V2 schemes both have candidates, a loop over the combined generator visits all V3, then all V2, then all V1 candidates.", "quantifier": "all header hash pairs", "why_tests_cant": "The hidden state machine of the iterator depends on how many candidates each scheme has.", "anchors": ["src/util/version/pkg2.rs: VersionGen Iterator::next"]}
{"id": "C58", "title": "Stored strings are read as the format lays them out", "statement": "For every Unicode text and every key stream, reading a string that is laid out as the file format says (length byte or 32-bit length, then bytes/UTF-16 units xored with the position mask 0xAA+i / 0xAAAA+i and the key stream) returns exactly that text and leaves the cursor just behind it; this holds for strings stored in place, strings referenced by a block offset, and package-2 directory names.", "quantifier": "all texts of Unicode scalar values (short and long form), all key streams, all surrounding bytes, all cursor positions", "why_tests_cant": "A test fixes a few texts and keys; the mask indexes wrap at 256 and 65536 and the length forms switch at 127/128, and a consistent wrong constant in both directions passes every round-trip test.", "anchors": ["src/reader.rs:427-606", "src/reader.rs:917-923", "src/property/string.rs:160-164"]}
{"id": "C59", "title": "A string object built from text stores the format's bytes", "statement": "WzString::from_str stores exactly the bytes which the file format prescribes for that text under that key stream (ASCII body for ASCII text, UTF-16 body otherwise).", "quantifier": "all texts, all key streams", "why_tests_cant": "The round trip alone does not fix the byte layout; all lengths and keys are needed.", "anchors": ["src/property/string.rs:110-138", "src/property/string.rs:177-229"]}
{"id": "C60", "title": "Package-2 name keys follow the published schedule", "statement": "Byte i of a package-2 directory name is xored with byte number ceil((i mod 8)/2) of the 64-bit name key (period 8), and that key is derived from the header hash and the version hash by the stated xor/mix arithmetic modulo 2^32 (32-bit packages) or xor with a constant (64-bit packages).", "quantifier": "all 64-bit keys, all header hashes", "why_tests_cant": "Tests check two or three hash pairs; the schedule has overlapping slices and wrapping multiplications.", "anchors": ["src/util/string_decryptor/pkg2_decryptor.rs:29-109"]}
{"id": "C61", "title": "Collected links are exactly the UOL nodes", "statement": "When a property list is parsed, the UOL nodes handed back for later link resolution are exactly the UOL nodes of the resulting tree, each once, in document order, through sub-properties, canvases, convexes and videos.", "quantifier": "all byte sequences that parse", "why_tests_cant": "every tree shape; a forgotten branch leaves links silently unresolved", "anchors": ["src/util/parse_property.rs: parse_property_list, parse_more"]}
{"id": "C62", "title": "Parsing terminates on data without negative string lengths", "statement": "Parsing a property list returns (a value, an error or a panic) with recursion bounded by the number of bytes, for every byte sequence in which no ASCII string carries a negative length.", "quantifier": "all such byte sequences, all positions", "why_tests_cant": "termination on every input", "anchors": ["src/util/parse_property.rs: parse_property_list, parse_more", "src/reader.rs: read_wz_string"]}
{"id": "C63", "title": "Parsing work is bounded by the data", "statement": "The number of nodes produced by parsing an image is at most the number of its bytes.", "quantifier": "all byte sequences", "why_tests_cant": "needs nested size fields that jump back over the data", "anchors": ["src/util/parse_property.rs: parse_property_node (type 9)"]}
{"id": "C64", "title": "Direct access reports a missing last component", "statement": "For any image bytes that parse: asking directly for a path whose last component is not in its list yields \"node not found\".", "quantifier": "all image bytes, all such paths", "why_tests_cant": "two parsers on every byte sequence", "anchors": ["src/util/parse_property.rs: get_node", "src/wz_image.rs: WzImage::at_path"]}
{"id": "C65", "title": "An unknown extended type becomes a null node under its own name", "statement": "An extended property whose type name is not one of the eight known ones becomes a null node under the name of its entry, and parsing continues at the end of its block whatever the block contains.", "quantifier": "all buffers, all names, all unknown type names, all sizes", "why_tests_cant": "infinitely many type names and block contents", "anchors": ["src/util/parse_property.rs: parse_property_node, parse_more"]}
{"id": "C66", "title": "Direct access reaches children of canvases", "statement": "Asking directly for a path through the children of a canvas returns the node the full parse has there.", "quantifier": "all images, all paths through canvases", "why_tests_cant": "a separate code path for direct access", "anchors": ["src/util/parse_property.rs: get_node, parse_more (Canvas)"]}
{"id": "C67", "title": "Version detection never refuses a well-formed classic package", "statement": "Opening a well-formed classic package without giving the version never reports an error: it yields the package as made, or an earlier candidate version under which everything also verified.", "quantifier": "all directory trees, versions 1..2000, keys", "why_tests_cant": "depends on the behaviour of all smaller candidate versions on the file", "anchors": ["src/file.rs: WzFile::parse_pkg1, try_decode_with_wz_version_number", "src/directory.rs: WzDirectory::resolve_children, prepare_entries"]}
{"id": "C68", "title": "The detected version is the version of the package", "statement": "Opening a well-formed classic package without giving the version reports the version it was made with.", "quantifier": "all packages", "why_tests_cant": "sample packages happen to be rejected under all earlier candidates", "anchors": ["src/file.rs: WzFile::parse_pkg1"]}
{"id": "C69", "title": "What opening a classic package guarantees", "statement": "If opening succeeds, the reported hash is the hash of the reported version, that version fits the header, an explicitly requested version is the one reported, and every image at any depth starts with one of the three image header bytes and ends inside the file (offset plus size modulo 2^64).", "quantifier": "all file contents, all requested versions", "why_tests_cant": "quantifies over malformed files", "anchors": ["src/file.rs: WzFile::parse_pkg1, try_decode_with_wz_version_number", "src/directory.rs: WzDirectoryEntry::verify"]}
{"id": "C70", "title": "Package-2 directory round trip", "statement": "For every tree, a package-2 package (32-bit counts with the terminator, or 64-bit enciphered counts), with any of the four offset schemes and with or without the name key, is read back as the same tree with the real offsets.", "quantifier": "all trees, hashes, keys, positions; 32-bit: non-empty directories, count not 1..4; 64-bit: subdirectory counts enciphered to non-negative numbers", "why_tests_cant": "infinitely many listings and hash values", "anchors": ["src/directory.rs: WzDirectory::resolve_entry_pkg2, resolve_entry_pkg2_v64, read_pkg2_entry", "src/util/offset.rs"]}
{"id": "C71", "title": "Any enciphered entry count works", "statement": "A 32-bit package-2 listing is read back whatever number its enciphered entry count is.", "quantifier": "all counts", "why_tests_cant": "only counts 1..4 fail, which real packages hit by chance", "anchors": ["src/directory.rs: WzDirectory::read_pkg2_entry, resolve_entry_pkg2"]}
{"id": "C72", "title": "Empty package-2 directories are read back", "statement": "An empty directory of a 32-bit package-2 package is read back as empty.", "quantifier": "all hashes and counts", "why_tests_cant": "sample packages have no empty directory", "anchors": ["src/directory.rs: WzDirectory::resolve_entry_pkg2"]}
{"id": "C73", "title": "64-bit packages with subdirectories are read back", "statement": "A 64-bit package-2 package with subdirectories is read back whatever its hashes are.", "quantifier": "all 64-bit hashes", "why_tests_cant": "depends on the top bit of the hashes; a sample package shows one of the two cases", "anchors": ["src/directory.rs: WzDirectoryEntry::verify"]}
{"id": "C74", "title": "Opening a package never panics", "statement": "Opening any file returns a result or an error.", "quantifier": "all file contents", "why_tests_cant": "only malformed files panic", "anchors": ["src/directory.rs: WzDirectoryEntry::into_wz_node_tuple"]}
{"id": "C75", "title": "Images of an opened package lie inside the file", "statement": "For every image of an opened package offset + size is at most the file length.", "quantifier": "all file contents", "why_tests_cant": "needs a negative size field", "anchors": ["src/directory.rs: WzDirectoryEntry::verify"]}
{"id": "C76", "title": "Text and script images", "statement": "An image whose name ends in .txt becomes one raw-data child covering the image; a .lua image with header byte 1 becomes one Script child covering the stored script; an image starting with #Property becomes one raw-data child without those nine bytes; other header bytes give the documented errors.", "quantifier": "all contents, names, positions and sizes (#Property: size at least 9)", "why_tests_cant": "combination of name suffix, header byte and size is unbounded", "anchors": ["src/wz_image.rs: WzImage::resolve_children"]}
{"id": "C77", "title": "The root's own path and names with slashes", "statement": "Every node, including the root, is found from the root by the path get_path_from_root gives, whatever the names are.", "quantifier": "all trees", "why_tests_cant": "needs names with slashes, which images may contain", "anchors": ["src/node.rs: get_path_from_root, at_path"]}
{"id": "C78", "title": "Path from the image and inlinks", "statement": "For a node below an image with no image in between, get_path_from_image gives the names from that image, and resolving that path as an inlink from the node gives the node itself.", "quantifier": "all trees and nodes", "why_tests_cant": "all shapes and depths", "anchors": ["src/node.rs: get_path_from_image", "src/util/node_util.rs: resolve_inlink"]}
{"id": "C79", "title": "filter_parent finds the nearest ancestor", "statement": "filter_parent returns the nearest proper ancestor that satisfies the predicate and None if there is none; an outlink is looked up from the nearest ancestor that is a file called Base.", "quantifier": "all trees, nodes and predicates", "why_tests_cant": "all shapes", "anchors": ["src/node.rs: filter_parent, get_base_wz_file, get_parent_wz_image", "src/util/node_util.rs: resolve_outlink"]}
{"id": "C80", "title": "Repairing parents", "statement": "After resolve_childs_parent on a finite tree every child, at every depth, has its owner as parent; names, objects and children of all nodes and all nodes outside are unchanged.", "quantifier": "all finite trees", "why_tests_cant": "all shapes", "anchors": ["src/util/node_util.rs: resolve_childs_parent"]}
{"id": "C81", "title": "Climbing out of the tree", "statement": "A resolved UOL path leads to a node only if stepping through the link does.", "quantifier": "all paths", "why_tests_cant": "needs a link that climbs two levels above the root", "anchors": ["src/util/node_util.rs: get_resolved_uol_path"]}
{"id": "C82", "title": "'.' components are resolved", "statement": "get_resolved_uol_path drops '.' components, as its documentation says.", "quantifier": "all paths", "why_tests_cant": "no test has a '.' component", "anchors": ["src/util/node_util.rs: get_resolved_uol_path"]}
{"id": "C83", "title": "Chains of links are resolved", "statement": "After parsing an image no slot holds a link whose target exists.", "quantifier": "all images", "why_tests_cant": "depends on the order of the links", "anchors": ["src/util/node_util.rs: resolve_uol", "src/node.rs: parse"]}
{"id": "C84", "title": "Walking ends", "statement": "walk_node on a tree returns, also after links were resolved.", "quantifier": "all trees and images", "why_tests_cant": "needs a link to an ancestor", "anchors": ["src/util/walk.rs: walk_node", "src/util/node_util.rs: resolve_uol"]}
{"id": "C85", "title": "What a parsing lookup returns is in the tree", "statement": "If at_path_parsed, started at a node that was read, returns a node, then at_path with the same path returns that node afterwards; nodes that were read before are unchanged.", "quantifier": "all trees, paths and contents read", "why_tests_cant": "all interleavings of parsed and unparsed nodes", "anchors": ["src/node.rs: at_path_parsed, at_path, parse"]}
{"id": "C86", "title": "Image lookup handles every path", "statement": "For every path to or through an image get_image_node_from_path returns that image and the rest of the path; it never panics.", "quantifier": "all paths and trees", "why_tests_cant": "specific path shapes only", "anchors": ["src/util/node_util.rs: get_image_node_from_path"]}
{"id": "C87", "title": "Lookup without parsing agrees with plain lookup", "statement": "For a path through an image, get_node_without_parse gives what at_path gives if the image is parsed, and otherwise what the lookup in the image's bytes gives for the rest of the path.", "quantifier": "all trees, paths without '.img' that continue behind the image", "why_tests_cant": "all shapes", "anchors": ["src/util/node_util.rs: get_node_without_parse"]}
{"id": "C88", "title": "Moving a node's children to itself", "statement": "transfer_childs from a node to itself is harmless.", "quantifier": "all nodes", "why_tests_cant": "a deadlock, not a wrong value", "anchors": ["src/node.rs: transfer_childs"]}
{"id": "C89", "title": "An opened package consists of directories and images", "statement": "Every node of an opened package is a directory or an image.", "quantifier": "all file contents", "why_tests_cant": "needs a name stored elsewhere whose type byte there is not a directory or image", "anchors": ["src/directory.rs: WzDirectoryEntry::read_pkg1_entry, into_wz_node_tuple"]}
{"id": "C90", "title": "Unknown entry types and negative entry counts are rejected", "statement": "A directory listing that is accepted contains no entry of an unknown type, in all three formats; a subdirectory entry whose entry count is negative makes reading the parent fail with InvalidWzVersion.", "quantifier": "all file contents", "why_tests_cant": "any position of the bad entry, any content", "anchors": ["src/directory.rs: resolve_entry_pkg1, resolve_entry_pkg2, resolve_entry_pkg2_v64, WzDirectoryEntry::verify"]}
{"id": "C91", "title": "A directory with the wrong profile is an error", "statement": "Reading a directory of a 64-bit package with a profile for another format is an error.", "quantifier": "all contents", "why_tests_cant": "a panic in a combination the high-level API does not use", "anchors": ["src/directory.rs: WzDirectory::new, resolve_children", "src/util/offset.rs: get_entry_count_calculator"]}
{"id": "C92", "title": "DXT pictures of any width decode from their own blocks", "statement": "For DXT3 / DXT5 pictures of every width, pixel (x,y) comes from block (x/4, y/4).", "quantifier": "all widths", "why_tests_cant": "only widths that are no multiple of four show it", "anchors": ["src/property/png.rs: get_image_from_dxt3, get_image_from_dxt5 (par_chunks over the rows of blocks)"]}
{"id": "C93", "title": "DXT pictures decode without the feature rayon", "statement": "A DXT3 / DXT5 picture decodes whatever its size also in builds without the feature rayon.", "quantifier": "all sizes", "why_tests_cant": "needs another feature set and a size that is no multiple of four", "anchors": ["src/property/png.rs: get_image_from_dxt3, get_image_from_dxt5 (cfg(not(feature = rayon)))"]}
{"id": "C94", "title": "DXT3 and DXT5 blocks have four colours", "statement": "The colours of a DXT3 / DXT5 block are the four interpolated ones whatever the order of the two end colours.", "quantifier": "all blocks", "why_tests_cant": "needs a block with the end colours in the less usual order", "anchors": ["src/util/color.rs: create_color_table"]}
{"id": "C95", "title": "Form-517 pictures of any size show stored colours", "statement": "A form-517 picture whose sizes are no multiples of 16 still shows a stored colour at each pixel.", "quantifier": "all sizes", "why_tests_cant": "only other sizes show it", "anchors": ["src/property/png.rs: get_pixel_data_form_517"]}
{"id": "C96", "title": "Damaged canvases are reported as errors", "statement": "Decoding a canvas whose data cannot be located, or with too few pixels, gives an error.", "quantifier": "all canvases", "why_tests_cant": "needs damaged data", "anchors": ["src/property/png.rs: WzPng::extract_png, get_raw_data"]}
{"id": "C97", "title": "Every format with a known data size can be decoded", "statement": "A pixel format for which get_buff_size knows the size can be decoded.", "quantifier": "all formats", "why_tests_cant": "rare formats", "anchors": ["src/property/png.rs: get_buff_size", "src/property/png.rs: extract_png"]}
{"id": "C98", "title": "The announced size of a BC7 picture covers its blocks", "statement": "The size announced for a BC7 picture is the size of its blocks, rounded up to whole blocks.", "quantifier": "all sizes", "why_tests_cant": "only sizes that are no multiple of four show it", "anchors": ["src/property/png.rs: get_buff_size"]}
{"id": "C99", "title": "Format 3 pictures of the announced size decode", "statement": "Data of the announced size decode also for format 3.", "quantifier": "all sizes", "why_tests_cant": "needs tiny pictures", "anchors": ["src/property/png.rs: get_buff_size", "src/property/png.rs: extract_png"]}
{"id": "C100", "title": "The announced size is the product of the sizes", "statement": "get_buff_size is width times height times the bytes per pixel for every width and height.", "quantifier": "all u32 sizes", "why_tests_cant": "needs sizes near 2^16", "anchors": ["src/property/png.rs: get_buff_size"]}
{"id": "C101", "title": "Too few pixels of the formats 565 and 1555 are an error", "statement": "A 565 or 1555 canvas whose data hold fewer pixels than width times height fails with an error, without a panic.", "quantifier": "all canvases", "why_tests_cant": "every shortfall", "anchors": ["src/property/png.rs: get_image_from_rgb565, get_image_from_argb1555"]}
{"id": "C102", "title": "BC7 pictures show the decoder's pixels", "statement": "A BC7 picture consists of the words of the BC7 decoder in row order, with the bytes of each put in the order red, green, blue, alpha.", "quantifier": "all decoders' outputs, sizes", "why_tests_cant": "all data", "anchors": ["src/property/png.rs: get_image_from_bc7"]}
{"id": "C103", "title": "The feature rayon changes no pixel", "statement": "For sizes that are multiples of four a DXT picture is the same with and without the feature rayon.", "quantifier": "all data and such sizes", "why_tests_cant": "two builds would have to be compared on all data", "anchors": ["src/property/png.rs: get_image_from_dxt3, get_image_from_dxt5"]}
{"id": "C104", "title": "Adding a child affects only the slot of its name", "statement": "After node.add(child) the child is found below the node under its own name; the other children of the node, and all other nodes, are unchanged.", "quantifier": "all trees, nodes, names, including a name already in use", "why_tests_cant": "all trees", "anchors": ["src/node.rs: WzNode::add"]}
{"id": "C105", "title": "The path of an added child leads to it", "statement": "After node.add(child) the child's parent is the node and its full path leads through it.", "quantifier": "all trees", "why_tests_cant": "a tree built by hand and then asked for paths", "anchors": ["src/node.rs: WzNode::add", "src/node.rs: WzNode::get_full_path"]}
{"id": "C106", "title": "Unparsing clears a container and nothing else", "statement": "unparse on a directory, file or image leaves it without children and marked unread, with name, parent and all other nodes unchanged; on other nodes it does nothing.", "quantifier": "all trees and nodes", "why_tests_cant": "all trees", "anchors": ["src/node.rs: WzNode::unparse"]}
{"id": "C107", "title": "Every container can be unparsed", "statement": "unparse leaves every container without children.", "quantifier": "all containers", "why_tests_cant": "an opened .ms archive is needed", "anchors": ["src/node.rs: WzNode::unparse"]}
{"id": "C108", "title": "A sealed script is read correctly", "statement": "A script sealed with one of the three known keys is extracted as its text when its first 64 bytes end at a character boundary and no earlier key makes valid UTF-8 of them.", "quantifier": "all texts, keys, positions in the file, histories of the shared key buffers", "why_tests_cant": "infinitely many scripts and histories", "anchors": ["src/property/lua.rs: extract_lua"]}
{"id": "C109", "title": "Script extraction uses the first key that fits the first 64 bytes", "statement": "For a script inside the file, extraction never panics: the result is the text under the first key that makes valid UTF-8 of the first 64 bytes; an error exactly when no key does or when that key does not make a text of the whole script. The shared key buffers stay valid.", "quantifier": "all scripts, all histories of the shared key buffers", "why_tests_cant": "all byte sequences", "anchors": ["src/property/lua.rs: extract_lua, get_mtb_keys_from_guess_lua_iv", "src/util/string_decryptor/mod.rs: get_decryptor_by_iv"]}
{"id": "C110", "title": "An unencrypted script is read as it is", "statement": "A script that is stored without encryption is extracted as its text.", "quantifier": "all scripts", "why_tests_cant": "needs a script whose bytes happen to be valid under another key", "anchors": ["src/property/lua.rs: get_mtb_keys_from_guess_lua_iv"]}
{"id": "C111", "title": "A script with an impossible length is an error", "statement": "Extracting a script whose stored length is negative or exceeds the file is an error.", "quantifier": "all files", "why_tests_cant": "damaged files", "anchors": ["src/property/lua.rs: extract_lua", "src/wz_image.rs: resolve_children"]}
{"id": "C112", "title": "Raw data and videos are handed out as stored", "statement": "get_buffer of a raw data or video property gives exactly the stored bytes.", "quantifier": "all files, offsets, lengths", "why_tests_cant": "all files", "anchors": ["src/property/raw_data.rs: get_buffer", "src/property/video.rs: get_buffer"]}
{"id": "C113", "title": "Media data of a parsed image are present", "statement": "When an image parses, the data of its raw data, video and sound properties can be had.", "quantifier": "all files", "why_tests_cant": "truncated files", "anchors": ["src/util/parse_property.rs: parse_more", "src/property/sound.rs: get_buffer", "src/property/raw_data.rs: get_buffer"]}
{"id": "C114", "title": "A picture comes out only of accepted data", "statement": "extract_png gives a picture only if the decompressor accepted the stored data for the announced size, and for BC7 only if the block decoder accepted the decompressed data; the picture is then made of the decoder's pixels. Rejected data never turns into an empty or stale picture.", "quantifier": "all canvases, decompressors and block decoders", "why_tests_cant": "quantifies over all canvases and all decompressor outcomes", "anchors": ["src/property/png.rs: WzPng::extract_png, get_raw_data, get_image_from_bc7"]}
{"id": "C115", "title": "The Snow2 key stream is the one of the published SNOW 2.0 for keys of bytes below 128", "statement": "Data encrypted with an independent SNOW 2.0 implementation (128-bit key, IV 0) is recovered when all key bytes are below 128.", "quantifier": "all keys with bytes below 128, all data", "why_tests_cant": "a cipher agreeing on some keys says nothing about others; table entries may be wrong in places no test reaches", "anchors": ["src/ms/snow2_decryptor.rs: Snow2Decryptor, tables in src/ms/snow2_decryptor.rs"]}
{"id": "C116", "title": "The Snow2 key stream is the one of the published SNOW 2.0 for all keys", "statement": "The same for all keys of 16 bytes.", "quantifier": "all keys, all data", "why_tests_cant": "only keys with a byte of 128 or more in a low position differ", "anchors": ["src/ms/snow2_decryptor.rs: Snow2Ctx::with_key"]}
{"id": "C117", "title": "Snow2 reads of any length return consecutive pieces", "statement": "As C39, without the restriction to even lengths.", "quantifier": "all read sequences", "why_tests_cant": "needs a particular order of reads", "anchors": ["src/ms/snow2_reader.rs: read_i32, write_bytes_to"]}
{"id": "C118", "title": "Snow2 byte reads never panic", "statement": "Reading bytes one piece after another from a long enough stream never panics.", "quantifier": "all read sequences", "why_tests_cant": "needs a particular order of reads", "anchors": ["src/ms/snow2_reader.rs: write_bytes_to"]}
{"id": "C119", "title": "Truncated Snow2 streams are errors", "statement": "A number, text or byte read past the end of the data is an error and not a panic.", "quantifier": "all readers at the end of their data, all lengths below 2^31", "why_tests_cant": "all states", "anchors": ["src/ms/snow2_reader.rs: read_i32, read_utf16_string, read_bytes"]}
{"id": "C120", "title": "MS v1 archives open, list and give back every image", "statement": "A file laid out as a version 1 archive (salted header, Snow2 table, twice hidden images) opens under its file name, lists its entries in order with their names and sizes, and every image is recovered byte by byte.", "quantifier": "all file names, salts, entry lists, images", "why_tests_cant": "tests read a few archives", "anchors": ["src/ms/file.rs: MsFile::from_file, parse", "src/ms/header.rs: from_ms_file", "src/ms/ms_image.rs: to_wz_image"]}
{"id": "C121", "title": "MS v1 headers are checked", "statement": "A version 1 header is accepted exactly when its version byte is 2 and its hash equals salt length word + version + count + sum of the salt words (mod 2^32); otherwise the respective error is returned. Accepted headers report salt, name, hash, count and table start as stored.", "quantifier": "all headers", "why_tests_cant": "all hashes", "anchors": ["src/ms/header.rs: from_ms_file"]}
{"id": "C122", "title": "Opening something that is no MS archive is an error", "statement": "MsFile::from_file never panics, whatever the file contains.", "quantifier": "all files", "why_tests_cant": "all contents", "anchors": ["src/ms/file.rs: MsFile::from_file", "src/ms/header.rs"]}
{"id": "C123", "title": "Turning an MS entry into an image never panics", "statement": "to_wz_image does not panic on any parsed entry.", "quantifier": "all entries", "why_tests_cant": "all entries", "anchors": ["src/ms/ms_image.rs: to_wz_image_v1"]}
{"id": "C124", "title": "An accepted MS header can be parsed without a panic", "statement": "After the hash check parse returns entries or an error.", "quantifier": "all headers", "why_tests_cant": "all counts", "anchors": ["src/ms/file.rs: parse_v1"]}
{"id": "C125", "title": "Without pieces ending on block boundaries the stream is plain ChaCha20", "statement": "If no read ends on a 64-byte boundary, the reads return consecutive pieces of the data decrypted with ChaCha20 from counter 0.", "quantifier": "all piece lists, keys, nonces", "why_tests_cant": "all cuts of all streams", "anchors": ["src/ms/chacha20_reader.rs: apply_keystream"]}
{"id": "C126", "title": "Buffered ChaCha20 reading equals decrypting the whole stream", "statement": "Any sequence of reads through the ChaCha20 reader returns consecutive pieces of the decrypted stream, independent of how it is cut into reads.", "quantifier": "all read sequences, all data", "why_tests_cant": "the 64-byte buffer has history", "anchors": ["src/ms/chacha20_reader.rs: apply_keystream"]}
{"id": "C127", "title": "Buffered bytes can be read at the end of the data", "statement": "Bytes of a block that was decrypted already can be read though the data ends with this block.", "quantifier": "all data", "why_tests_cant": "depends on the position of the end", "anchors": ["src/ms/chacha20_reader.rs: read_bytes, read_i32"]}
{"id": "C128", "title": "Images of MS v2 archives are placed on 1024-byte boundaries", "statement": "The data area starts at the first 1024-byte boundary at or after the end of the entry table (padded to whole cipher blocks), and each entry's offset is that plus its stored block index times 1024, its length its stored aligned size.", "quantifier": "all version 2 tables of well-formed entries", "why_tests_cant": "all table sizes", "anchors": ["src/ms/file.rs: parse_v2"]}
{"id": "C129", "title": "Images of MS v2 archives are decrypted", "statement": "For an MS v2 entry with an ASCII name, the first 1024 bytes of the image are XORed with the ChaCha20 stream under the key made of salt, name and entry key, the nonce and counter made of the salt hash; the rest is copied; the result is the image, cut to the entry's size.", "quantifier": "all entries, all images", "why_tests_cant": "all sizes around 1024", "anchors": ["src/ms/ms_image.rs: to_wz_image_v2"]}
{"id": "C130", "title": "MS v2 archives open, list and give back every image", "statement": "A file laid out as a version 2 archive whose bytes do not form a version 1 header opens under its file name, lists its entries in order with their names and sizes, and every image is recovered byte by byte.", "quantifier": "all file names, salts, entry lists, images", "why_tests_cant": "tests read a few archives", "anchors": ["src/ms/file.rs: MsFile::from_file, parse", "src/ms/header.rs: from_ms_file_v2", "src/ms/ms_image.rs: to_wz_image"]}
{"id": "C131", "title": "MS v2 headers are read as stored", "statement": "A version 2 header is accepted exactly when its version byte is 4; accepted headers report salt, name, hash, count and table start as stored.", "quantifier": "all headers", "why_tests_cant": "all salts and names", "anchors": ["src/ms/header.rs: from_ms_file_v2"]}
{"id": "C132", "title": "MS v2 images can be read whatever their name", "statement": "to_wz_image gives the image of any version 2 entry that lies in the file.", "quantifier": "all names", "why_tests_cant": "all names", "anchors": ["src/ms/ms_image.rs: to_wz_image_v2"]}
{"id": "C133", "title": "An accepted MS v2 header can be parsed without a panic", "statement": "After from_ms_file_v2 accepted the header, parse returns entries or an error.", "quantifier": "all headers", "why_tests_cant": "all counts", "anchors": ["src/ms/header.rs: from_ms_file_v2", "src/ms/file.rs: parse_v2"]}
{"id": "C134", "title": "Every MS v2 archive opens", "statement": "MsFile::from_file opens every well-formed version 2 archive.", "quantifier": "all archives", "why_tests_cant": "depends on random bytes", "anchors": ["src/ms/file.rs: MsFile::from_file", "src/ms/header.rs: from_ms_file"]}
{"id": "C135", "title": "Guarded text decoding accepts exactly what was written as text", "statement": "try_resolve_wz_string_meta on bytes inside the buffer returns Ok(t) exactly when the bytes are t written in the string's encoding under the reader's key, and otherwise the UTF-8 or UTF-16 error; when it returns Ok(t) the unguarded decoding returns t too. Names in MS archives decode to t exactly when their units are the UTF-16 units of t, and give the UTF-16 error otherwise.", "quantifier": "all bytes, all keys, all three encodings", "why_tests_cant": "invalid sequences are infinitely many and depend on the key", "anchors": ["src/reader.rs: try_resolve_wz_string_meta, resolve_wz_string_meta", "src/ms/snow2_reader.rs: read_utf16_string", "src/ms/chacha20_reader.rs: read_utf16_string"]}
{"id": "C136", "title": "A string key is accepted exactly if it has the right top bits", "statement": "For a package whose first directory entry has an ASCII name stored under a key, verify_decryptor_from_wz_file accepts the key stream of an IV exactly if that stream agrees with the right one in the top bit of every byte the name covers, and returns an error otherwise.", "quantifier": "all packages, all names, all block ciphers, all IVs", "why_tests_cant": "depends on the key stream of an arbitrary cipher", "anchors": ["src/util/string_decryptor/mod.rs: verify_decryptor_from_wz_file, try_get_first_wz_name_meta_from_wz_file"]}
{"id": "C137", "title": "Guessing takes the first fitting key", "statement": "guess_decryptor_from_wz_file on such a package returns the first of BMS, GMS, EMS whose key stream has the right top bits.", "quantifier": "all packages, all names, all block ciphers", "why_tests_cant": "depends on the key stream of an arbitrary cipher", "anchors": ["src/util/string_decryptor/mod.rs: guess_decryptor_from_wz_file"]}
{"id": "C138", "title": "The right one of the standard keys is found", "statement": "With the built-in AES user key, guess_decryptor_from_wz_file finds the key of every package written under the BMS, GMS or EMS key whose first name is ASCII (of at least two characters for EMS).", "quantifier": "all packages, all ASCII names", "why_tests_cant": "unboundedly many names", "anchors": ["src/util/string_decryptor/mod.rs: guess_decryptor_from_wz_file"]}
{"id": "C139", "title": "EMS packages are recognised whatever their first name", "statement": "guess_decryptor_from_wz_file finds the EMS key for every EMS package with a nonempty ASCII first name.", "quantifier": "all EMS packages", "why_tests_cant": "unboundedly many names", "anchors": ["src/util/string_decryptor/mod.rs: guess_decryptor_from_wz_file"]}
{"id": "C140", "title": "The right key is refused for a first name outside ASCII", "statement": "If the first name contains a character outside ASCII, verify_iv_from_wz_file accepts the right IV while verify_decryptor_from_wz_file returns DecryptError for it.", "quantifier": "all packages, all such names, all IVs", "why_tests_cant": "unboundedly many names and keys", "anchors": ["src/util/string_decryptor/mod.rs: verify_decryptor_from_wz_file_with_meta", "src/util/version/mod.rs: verify_iv_from_wz_file"]}
{"id": "C141", "title": "The key of every package under a standard key is found", "statement": "guess_decryptor_from_wz_file finds the key of every package under BMS, GMS or EMS key with a nonempty first name.", "quantifier": "all packages", "why_tests_cant": "unboundedly many names", "anchors": ["src/util/string_decryptor/mod.rs: guess_decryptor_from_wz_file"]}
{"id": "C142", "title": "An image file fits an IV exactly if it says Property under it", "statement": "verify_iv_from_wz_img returns true exactly if after the first byte the text \"Property\" stands in one of its four stored forms under the IV's key, and false otherwise; it never panics.", "quantifier": "all image files, all key streams", "why_tests_cant": "all byte strings and keys", "anchors": ["src/util/version/mod.rs: verify_iv_from_wz_img"]}
{"id": "C143", "title": "An image file is opened exactly under the standard key it was written with", "statement": "WzImage::from_file without an IV succeeds exactly if the file starts with 0x73 and says Property under the GMS, EMS or zero IV, and takes that IV; with one of these IVs given it succeeds exactly if the file fits that one.", "quantifier": "all nonempty files", "why_tests_cant": "all byte strings", "anchors": ["src/wz_image.rs: WzImage::from_file", "src/util/version/mod.rs: guess_iv_from_wz_img"]}
{"id": "C144", "title": "Looking for a key never panics", "statement": "guess_decryptor_from_wz_file, guess_iv_from_wz_file, verify_decryptor_from_wz_file and verify_iv_from_wz_file never panic on any bytes, nor do guess_iv_from_wz_img and WzImage::from_file on a nonempty file; the guessing functions always return (a key or none).", "quantifier": "all byte strings, all keys", "why_tests_cant": "all byte strings", "anchors": ["src/util/string_decryptor/mod.rs", "src/util/version/mod.rs"]}
{"id": "C145", "title": "Opening an image file never panics", "statement": "WzImage::from_file returns Ok or Err for every file content.", "quantifier": "all files", "why_tests_cant": "all byte strings", "anchors": ["src/wz_image.rs: WzImage::from_file", "src/util/version/mod.rs: guess_iv_from_wz_img"]}
{"id": "C146", "title": "Every kind of image can be opened from a file", "statement": "An image file that WzImage::resolve_children can read is opened by WzImage::from_file.", "quantifier": "all image files", "why_tests_cant": "all byte strings and IVs", "anchors": ["src/wz_image.rs: WzImage::from_file, resolve_children"]}
{"id": "C147", "title": "The KMST 1198 key is found", "statement": "guess_decryptor_from_wz_file finds the fixed package-2 key of every PKG2 package whose first name is ASCII of 8 to 127 characters stored under it.", "quantifier": "all packages, all such names", "why_tests_cant": "unboundedly many names", "anchors": ["src/util/string_decryptor/mod.rs: guess_decryptor_from_wz_file, try_get_first_wz_name_pkg2_meta_from_wz_file"]}
{"id": "C148", "title": "The KMST 1198 key is found for names of every length", "statement": "guess_decryptor_from_wz_file finds the fixed package-2 key of every PKG2 package whose first name is nonempty ASCII stored under it.", "quantifier": "all packages", "why_tests_cant": "unboundedly many names", "anchors": ["src/util/string_decryptor/mod.rs: guess_decryptor_from_wz_file"]}
{"id": "C149", "title": "A classic package is read back in full", "statement": "A PKG1 package under the BMS, GMS or EMS key, whose first entry has an ASCII name standing in its place (two characters or more for EMS), opened with WzFile::from_file and parsed with its version given, shows exactly the tree it was written from, whether no IV is given, the right one, or one that does not fit; existing decryptors likewise.", "quantifier": "all packages, all trees, all versions, all IVs", "why_tests_cant": "unboundedly many trees, names and versions", "anchors": ["src/file.rs: WzFile::from_file, parse, parse_pkg1"]}
{"id": "C150", "title": "A classic package opened without a version is never refused", "statement": "Without a version given, such a package of a version from 1 to 2000 is never refused; the key found is the right one, the version found is at most the right one, and if it is the right one the tree is the right one.", "quantifier": "all packages, all trees, all versions from 1 to 2000", "why_tests_cant": "unboundedly many trees; 2000 candidate versions per file", "anchors": ["src/file.rs: WzFile::from_file, parse, parse_pkg1"]}
{"id": "C151", "title": "A package opened with the right IV is read back", "statement": "A PKG1 package opened with its right IV and version is read back.", "quantifier": "all packages", "why_tests_cant": "unboundedly many first names", "anchors": ["src/file.rs: WzFile::from_file", "src/util/string_decryptor/mod.rs: verify_decryptor_from_wz_file"]}
{"id": "C152", "title": "A package whose first entry stands elsewhere is read back", "statement": "A PKG1 package with ASCII names whose first entry refers to a name standing elsewhere is read back when opened with its right IV and version.", "quantifier": "all packages", "why_tests_cant": "needs the offset arithmetic of references against the guess", "anchors": ["src/file.rs: WzFile::from_file", "src/util/string_decryptor/mod.rs: try_get_first_wz_name_meta_from_wz_file"]}
{"id": "C153", "title": "A package with 64-bit hashes is read back in full", "statement": "A PKG2 package with 64-bit hashes (KMST 1202) is opened and shows exactly the tree it was written from, whatever IV or decryptor is offered and whatever the profile cache holds, unless its hash is 0 or its entry count looks like an entry; the profile is added to the cache once.", "quantifier": "all packages, all trees, all IVs, all caches", "why_tests_cant": "all byte strings; the answer depends on key streams and hashes over the whole file", "anchors": ["src/file.rs: WzFile::from_file, parse_pkg2, try_pkg2_profile, update_keys", "src/util/profile.rs"]}
{"id": "C154", "title": "A package with 64-bit hashes is read back whatever its entry count", "statement": "C153 without the condition on the entry count.", "quantifier": "all packages", "why_tests_cant": "all byte strings; the answer depends on key streams and hashes over the whole file", "anchors": ["src/file.rs: WzFile::from_file", "src/util/string_decryptor/mod.rs: guess_decryptor_from_wz_file"]}
{"id": "C155", "title": "A package with 64-bit hashes is read back whatever its hash", "statement": "C153 without the condition on the hash.", "quantifier": "all packages", "why_tests_cant": "all byte strings; the answer depends on key streams and hashes over the whole file", "anchors": ["src/file.rs: try_pkg2_profile, try_decode_with_wz_version_number"]}
{"id": "C156", "title": "A package with 32-bit hashes is read back under a name key made of the hashes", "statement": "A PKG2 package with 32-bit hashes for which no key is recognised is never refused if its hash fits the header and is cached or one the search can find (any for generation 1196, not rotating by 0 for 1197 and 1198, below 2^32 - 1 for 1199 to 1201); the hash taken fits the header, and if it is the right one (under the right offset scheme) the tree is the right one.", "quantifier": "all packages, all trees, all profiles, all caches", "why_tests_cant": "all byte strings; the answer depends on key streams and hashes over the whole file", "anchors": ["src/file.rs: WzFile::from_file, parse_pkg2, try_pkg2_profile, update_keys", "src/util/profile.rs"]}
{"id": "C157", "title": "A package under the fixed name key is read back", "statement": "The same for a PKG2 package with 32-bit hashes under the fixed name key of KMST 1198, with a first name of 8 to 127 ASCII characters.", "quantifier": "all packages, all trees, all profiles, all caches", "why_tests_cant": "all byte strings; the answer depends on key streams and hashes over the whole file", "anchors": ["src/file.rs: WzFile::from_file, parse_pkg2", "src/util/string_decryptor/mod.rs: guess_decryptor_from_wz_file"]}
{"id": "C158", "title": "A package under the fixed name key is read back whatever its first name", "statement": "C157 without the condition on the length of the first name.", "quantifier": "all packages", "why_tests_cant": "all byte strings; the answer depends on key streams and hashes over the whole file", "anchors": ["src/util/string_decryptor/mod.rs: guess_decryptor_from_wz_file", "src/file.rs: WzFile::from_file"]}
{"id": "C159", "title": "A profile with the wrong name key is refused", "statement": "verify_string_decryptor, called on opening a PKG2 package, refuses a name key that does not fit the package.", "quantifier": "all packages, all keys", "why_tests_cant": "a statement about all keys", "anchors": ["src/directory.rs: verify_string_decryptor", "src/file.rs: try_pkg2_profile"]}
{"id": "C160", "title": "A file without a known header is refused", "statement": "WzFile::from_file followed by parse returns an error, never a panic, on every file whose header is none of the known ones, whatever IV, decryptor, version or cache is offered.", "quantifier": "all byte strings, all keys, all caches", "why_tests_cant": "all byte strings", "anchors": ["src/file.rs: WzFile::from_file, parse"]}
{"id": "C161", "title": "An accepted file is consistent", "statement": "If WzFile::from_file and parse succeed on any bytes, the reported hash fits the header (and the version of a classic package; the equation of the reported profile, which is of the width of the header, of a PKG2 package, and is in the cache), and every image in the tree starts with an image header byte and ends inside the file (modulo 2^64).", "quantifier": "all byte strings, all keys, all caches", "why_tests_cant": "all byte strings", "anchors": ["src/file.rs: WzFile::from_file, parse, parse_pkg1, parse_pkg2"]}
{"id": "C162", "title": "Simple JSON is a picture of the tree", "statement": "When to_simple_json returns, the value has at the path of every node what that node holds: the number, text, vector or size at a leaf, an object with one entry per child above, plus the fields of a canvas or sound under names no child uses, and nothing else.", "quantifier": "all trees of nodes, all paths", "why_tests_cant": "trees of any depth and width with any names; the unit test looks at one tree of plain integers", "anchors": ["src/node.rs: WzNode::to_simple_json", "src/property/mod.rs: From<WzValue> for Value"]}
{"id": "C163", "title": "When the simple JSON exists", "statement": "to_simple_json returns a value exactly when every childless node is a finite float, a string that can be looked at without a panic, or any other kind; values of nodes with children do not matter.", "quantifier": "all trees", "why_tests_cant": "the failing leaf can be anywhere in the tree", "anchors": ["src/node.rs: WzNode::to_simple_json", "src/property/mod.rs: From<WzValue> for Value"]}
{"id": "C164", "title": "Exporting a readable image does not panic", "statement": "to_simple_json of an image that was parsed without an error returns.", "quantifier": "all images", "why_tests_cant": "needs a file with a NaN or an infinity in it", "anchors": ["src/property/mod.rs: From<WzValue> for Value"]}
{"id": "C165", "title": "The JSON does not depend on hash order", "statement": "Two trees that differ only in the order in which the child maps iterate have the same simple JSON and the same full JSON.", "quantifier": "all trees, all orders of children at every level", "why_tests_cant": "the order of a hash map differs from run to run; a test sees one", "anchors": ["src/node.rs: WzNode::to_simple_json", "src/node.rs: WzNode::to_json, arc_node_serde"]}
{"id": "C166", "title": "Simple JSON tells kinds apart", "statement": "Trees with different content have different simple JSON.", "quantifier": "all pairs of trees", "why_tests_cant": "needs a pair that collides", "anchors": ["src/node.rs: WzNode::to_simple_json", "src/property/mod.rs: From<WzValue> for Value"]}
{"id": "C167", "title": "The size of a canvas is in the simple JSON", "statement": "The simple JSON of a canvas has its width and height under these names.", "quantifier": "all canvases with any children", "why_tests_cant": "needs a child with one of these names", "anchors": ["src/node.rs: WzNode::to_simple_json"]}
{"id": "C168", "title": "Full JSON is a record of the tree", "statement": "When to_json returns, every node is an object with exactly name, type, data (for kinds that have data, as documented in the tests) and children, the children being exactly the node's.", "quantifier": "all trees", "why_tests_cant": "trees of any size with any kinds; the unit test has integers only", "anchors": ["src/node.rs: WzNode::to_json, arc_node_serde", "src/object.rs: WzObjectType (serde)"]}
{"id": "C169", "title": "When the full JSON exists", "statement": "to_json returns a value exactly when no node anywhere is raw data, a video or a script, and every string can be looked at without a panic.", "quantifier": "all trees", "why_tests_cant": "one node anywhere decides", "anchors": ["src/node.rs: WzNode::to_json, arc_node_serde", "src/object.rs: WzObjectType (serde)", "src/property/mod.rs: WzValue (serde)"]}
{"id": "C170", "title": "Every parsed image has a full JSON", "statement": "to_json of an image that was parsed without an error returns a value.", "quantifier": "all images", "why_tests_cant": "tests do not export images with scripts, videos or raw data", "anchors": ["src/node.rs: WzNode::to_json, arc_node_serde", "src/property/mod.rs: WzValue (serde)"]}
{"id": "C171", "title": "Full JSON round trip", "statement": "Deserializing the result of to_json gives a tree equal to the original up to the order of children, if it has no null, raw data, video or script nodes, floats are finite and strings are BMP text.", "quantifier": "all such trees, all values of the Rust types", "why_tests_cant": "unbounded trees and values; the unit test deserializes one tree of integers", "anchors": ["src/node.rs: WzNode::to_json, arc_node_serde", "src/object.rs: WzObjectType (serde)", "src/property/string.rs: Deserialize for WzString"]}
{"id": "C172", "title": "Null values survive the full JSON", "statement": "A null value comes back as a null value.", "quantifier": "all nodes", "why_tests_cant": "the untagged variants are tried in an order that shadows the null variant; tests use integers", "anchors": ["src/object.rs: WzObjectType (serde)", "src/property/mod.rs: WzSubProperty, WzValue (serde)"]}
{"id": "C173", "title": "Floats survive the full JSON", "statement": "A float value comes back as a float value.", "quantifier": "all bit patterns", "why_tests_cant": "needs a NaN or an infinity", "anchors": ["src/object.rs: WzObjectType (serde)"]}
{"id": "C174", "title": "Texts survive the full JSON", "statement": "A string value comes back with the same text.", "quantifier": "all Unicode texts", "why_tests_cant": "needs a character above U+FFFF", "anchors": ["src/property/string.rs: Deserialize for WzString", "src/property/string.rs: WzString::from_str"]}
{"id": "C175", "title": "The order of children survives the full JSON", "statement": "With the feature indexmap, children come back in their order.", "quantifier": "all trees", "why_tests_cant": "tests do not compare the order of children", "anchors": ["src/node.rs: WzNode::to_json, arc_node_serde"]}
{"id": "C176", "title": "Unknown kinds are rejected", "statement": "Deserializing a node whose type is no known kind is an error.", "quantifier": "all JSON values", "why_tests_cant": "tests deserialize well-formed input only", "anchors": ["src/object.rs: WzObjectType (serde)", "src/property/mod.rs: WzSubProperty (serde other)"]}
{"id": "C177", "title": "From stored bytes to simple JSON", "statement": "Parsing an image and exporting it gives JSON that says what the stored properties say, for property trees whose names differ within each list and whose floats are finite, whichever way they are laid out, with all media kinds.", "quantifier": "all property trees, keys, positions, layouts", "why_tests_cant": "unbounded trees, keys and layouts", "anchors": ["src/wz_image.rs: WzImage::resolve_children", "src/util/parse_property.rs", "src/node.rs: WzNode::to_simple_json"]}
{"id": "C178", "title": "JSON of linked nodes", "statement": "If the nodes below a node form a finite tree (nodes may be shared, as links make them), both exports of the node are those of that tree.", "quantifier": "all node graphs that unfold to finite trees", "why_tests_cant": "graphs of any shape", "anchors": ["src/node.rs: WzNode::to_simple_json", "src/node.rs: WzNode::to_json, arc_node_serde"]}
{"id": "C179", "title": "Exporting ends", "statement": "to_simple_json and to_json of a parsed image return.", "quantifier": "all images", "why_tests_cant": "needs an image with a link to one of its ancestors; the test would hang", "anchors": ["src/node.rs: WzNode::to_simple_json", "src/node.rs: WzNode::to_json, arc_node_serde", "src/util/node_util.rs: resolve_uol"]}
{"id": "C180", "title": "Damaged texts are reported", "statement": "Exporting a node whose text cannot be read is an error.", "quantifier": "all images", "why_tests_cant": "needs a file that ends within a text", "anchors": ["src/property/mod.rs: From<WzValue> for Value", "src/property/string.rs: Serialize for WzString"]}
{"id": "C181", "title": "A package directory becomes one tree", "statement": "When a package, the pieces of its series and the subdirectories it lists can all be opened and nothing is there twice, resolve_root_wz_file_dir gives a tree with exactly these children: what the pieces have, the tree of each listed subdirectory, and what else the package lists. Each node remembers the file it is from and its parent.", "quantifier": "all directories of any depth, all contents of files", "why_tests_cant": "the shapes of directories are endless; tests look at one sample folder", "anchors": ["src/util/resolver.rs: resolve_root_wz_file_dir_full"]}
{"id": "C182", "title": "Listing order does not matter", "statement": "The tree made of a package directory is the same for every order in which the system lists files and directories.", "quantifier": "all orders at all levels, all directories in which nothing is there twice", "why_tests_cant": "the order is chosen by the file system of the machine running the test", "anchors": ["src/util/resolver.rs: resolve_root_wz_file_dir_full"]}
{"id": "C183", "title": "Listing order never matters", "statement": "The tree is the same for every listing order also when two pieces of a series have a node of the same name, or a piece has a node for which there is a directory.", "quantifier": "all directories", "why_tests_cant": "needs a file system that lists files in another order", "anchors": ["src/util/resolver.rs: resolve_root_wz_file_dir_full"]}
{"id": "C184", "title": "Parents lead up to Base.wz", "statement": "In the tree that resolve_base gives, every node's parent is the node it is a child of and only Base.wz has none, so that lookups that go up end at Base.wz.", "quantifier": "all installations, whatever the files contain", "why_tests_cant": "holds of every node of every tree, a test walks one", "anchors": ["src/util/resolver.rs: resolve_base", "src/util/resolver.rs: resolve_root_wz_file_dir_full"]}
{"id": "C185", "title": "Nothing is made up", "statement": "Every node below Base.wz is a file of the installation or was read from one under its own name. Packages beside Base.wz are opened with the version and keys of Base.wz, and there is a node for a name exactly if the tree of Base.wz alone has one.", "quantifier": "all installations, whatever the files contain", "why_tests_cant": "a claim about what is absent from every tree", "anchors": ["src/util/resolver.rs: resolve_base", "src/util/resolver.rs: resolve_root_wz_file_dir_full"]}
{"id": "C186", "title": "A tidy installation is complete", "statement": "When Base.wz and the packages beside it for the names it lists can be opened and nothing is there twice, resolve_base succeeds: all listed names are there, those with a package have that package's whole tree below them, the others stay as Base.wz has them. This holds for Base.wz in a directory Base and beside the packages.", "quantifier": "all installations, both layouts, all contents of files", "why_tests_cant": "the shapes of installations are endless", "anchors": ["src/util/resolver.rs: resolve_base", "src/util/resolver.rs: resolve_root_wz_file_dir_full"]}
{"id": "C187", "title": "A missing package is no accident", "statement": "A directory that Base.wz lists but that has no package of that name leaves the node as it is, or is an error.", "quantifier": "all installations", "why_tests_cant": "needs an incomplete installation", "anchors": ["src/util/resolver.rs: get_root_wz_file_path", "src/util/resolver.rs: resolve_base"]}
{"id": "C188", "title": "Other files are ignored", "statement": "A file that is no package does not disturb resolving the installation.", "quantifier": "all installations", "why_tests_cant": "nobody thinks of the file that happens to be there", "anchors": ["src/util/resolver.rs: resolve_root_wz_file_dir_full"]}
{"id": "C189", "title": "Pieces stay with their series", "statement": "Only pieces of a package's own series are merged into it.", "quantifier": "all installations", "why_tests_cant": "needs split packages of two names in one directory", "anchors": ["src/util/resolver.rs: resolve_root_wz_file_dir_full", "src/util/resolver.rs: resolve_base"]}
{"id": "C190", "title": "Unreadable pieces are reported", "statement": "resolve_base is an error if a piece of a series cannot be parsed.", "quantifier": "all installations", "why_tests_cant": "needs a damaged piece", "anchors": ["src/util/resolver.rs: resolve_root_wz_file_dir_full"]}
{"id": "C191", "title": "Any path to Base.wz will do", "statement": "resolve_base succeeds for every path of an existing Base.wz that can be opened alone.", "quantifier": "all paths", "why_tests_cant": "depends on the working directory of the test", "anchors": ["src/util/resolver.rs: resolve_base"]}
{"id": "C192", "title": "Packages come from the directory of their name", "statement": "The tree below a name of Base.wz is made from the directory or file of that name, whatever else lies beside it.", "quantifier": "all installations", "why_tests_cant": "needs a copy of a directory beside the original", "anchors": ["src/util/resolver.rs: resolve_base"]}
{"id": "C193", "title": "The full JSON of a stored image", "statement": "For an image as laid out in a file, to_json says of every property its name, its kind by the right word, its value under data if it has one, and its children; it is made exactly if there is no raw data and no video in the image.", "quantifier": "all stored images whose lists have no name twice, all ways of laying them out", "why_tests_cant": "the images are endless; a test compares one file", "anchors": ["src/node.rs: WzNode::to_json, arc_node_serde", "src/property/mod.rs: WzValue, WzSubProperty", "src/object.rs: WzObjectType"]}
{"id": "C194", "title": "guess_iv_from_wz_file finds an IV", "statement": "For every package whose names are written under one of the three standard keys, guess_iv_from_wz_file gives an IV: the right one, or one that is tried earlier; a package with open names is always recognised.", "quantifier": "all packages of the three kinds, all first names", "why_tests_cant": "the names are endless", "anchors": ["src/util/version/mod.rs: guess_iv_from_wz_file", "src/util/version/mod.rs: verify_iv_from_wz_file"]}
{"id": "C195", "title": "guess_iv_from_wz_file finds the right IV", "statement": "The IV found is the one the names are written under.", "quantifier": "all packages of the three kinds, all first names", "why_tests_cant": "nobody has packages of every region", "anchors": ["src/util/version/mod.rs: guess_iv_from_wz_file"]}
{"id": "C196", "title": "A first entry that stands elsewhere", "statement": "In a package without a version field, the key of the names is found also if the first entry of the directory is a reference to one that stands elsewhere.", "quantifier": "all such packages, the three standard keys, ASCII names (of two characters at least under the Sea key)", "why_tests_cant": "needs packages of a rare layout", "anchors": ["src/util/string_decryptor/mod.rs: try_get_first_wz_name_meta", "src/util/string_decryptor/mod.rs: guess_decryptor_from_wz_file"]}
{"id": "C197", "title": "get_image follows the links", "statement": "In a tree that has been parsed, get_image of a canvas gives the pixels at the end of its links: an _inlink is looked up from the image it lies in and goes before an _outlink, which is looked up from the file Base; links that lead nowhere are passed over; a link to something that is no canvas is an error. The tree does not change.", "quantifier": "all trees, all chains of links of any length", "why_tests_cant": "chains of links over several packages; a test follows one", "anchors": ["src/property/png.rs: get_image", "src/util/node_util.rs: resolve_inlink", "src/util/node_util.rs: resolve_outlink", "src/property/string.rs: resolve_string_from_node"]}
{"id": "C198", "title": "get_image reads what an outlink needs", "statement": "An _outlink into an image that has not been parsed makes get_image parse what is on the way and give the picture of the node the link then names; own pixels are shown only if a name is missing or parsing fails. Nodes that were parsed before are left as they were.", "quantifier": "all trees, all ways of reading files that only add nodes", "why_tests_cant": "depends on what has been parsed before, which is different in every program run", "anchors": ["src/property/png.rs: get_image", "src/util/node_util.rs: resolve_outlink", "src/node.rs: WzNode::at_path_parsed", "src/node.rs: WzNode::parse"]}
{"id": "C199", "title": "A canvas keeps its picture when its image is released", "statement": "get_image of a canvas gives the same picture before and after unparse of the image it lies in.", "quantifier": "all trees with a canvas below an image", "why_tests_cant": "needs a canvas kept beyond unparse, as walk_node with force_parse does", "anchors": ["src/property/png.rs: get_image", "src/node.rs: WzNode::unparse", "src/util/walk.rs: walk_node"]}
{"id": "C200", "title": "Links that cannot be followed are reported", "statement": "If a link of a canvas leads nowhere, get_image is an error (there is a LinkError).", "quantifier": "all trees", "why_tests_cant": "nobody tests packages opened on their own", "anchors": ["src/property/png.rs: get_image", "src/property/png.rs: WzPngParseError::LinkError", "src/node.rs: WzNode::get_base_wz_file"]}
{"id": "C201", "title": "get_image ends", "statement": "get_image ends for every canvas.", "quantifier": "all trees", "why_tests_cant": "a run that does not end cannot be told from a long one", "anchors": ["src/property/png.rs: get_image"]}
{"id": "C202", "title": "A canvas with pixels has a picture", "statement": "If the pixels of a canvas can be decoded, get_image gives a picture.", "quantifier": "all trees", "why_tests_cant": "as C200", "anchors": ["src/property/png.rs: get_image"]}
{"id": "C203", "title": "get_image does not block", "statement": "If the _outlink of a canvas names a canvas that is there, get_image gives a picture or an error.", "quantifier": "all trees", "why_tests_cant": "a blocked test says nothing about why", "anchors": ["src/property/png.rs: get_image", "src/util/node_util.rs: resolve_outlink", "src/node.rs: WzNode::at_path_parsed"]}
{"id": "C204", "title": "Slice functions read stored values", "statement": "reader::read_wz_string, read_wz_string_block, read_wz_int, read_wz_int64 and read_string_by_len return exactly the value that was stored in the slice without a key: every Unicode text in the short or long form, inline or by offset, every i32 and i64, every UTF-8 text of known length.", "quantifier": "all Unicode texts, all numbers, all surrounding bytes (slices below 2 GiB)", "why_tests_cant": "texts, lengths and offsets are unbounded", "anchors": ["src/reader.rs: read_wz_string (free)", "src/reader.rs: read_wz_string_block (free)", "src/reader.rs: read_wz_int (free)", "src/reader.rs: read_string_by_len"]}
{"id": "C205", "title": "Slice function and reader agree", "statement": "On any bytes at any place, reader::read_wz_string on the slice and the read_wz_string method of a reader without key give the same text or the same read error, and the slice function panics exactly where the method reports a range error; unless a long length is negative.", "quantifier": "all byte buffers below 2 GiB and all positions", "why_tests_cant": "needs all broken inputs", "anchors": ["src/reader.rs: read_wz_string (free)", "src/reader.rs: read_wz_string"]}
{"id": "C206", "title": "Slice functions answer broken input with an error", "statement": "reader::read_wz_string, read_wz_string_block and read_string_by_len on truncated or wrong bytes return an error instead of panicking.", "quantifier": "all byte slices", "why_tests_cant": "false for some inputs only", "anchors": ["src/reader.rs: read_wz_string (free)", "src/reader.rs: read_wz_string_block (free)", "src/reader.rs: read_string_by_len"]}
{"id": "C207", "title": "Slice function and reader agree on negative lengths", "statement": "reader::read_wz_string on the slice and the reader method without key agree also if the stored long length is negative.", "quantifier": "all byte slices", "why_tests_cant": "false for a few of 2^32 lengths", "anchors": ["src/reader.rs: read_unicode_string (free)", "src/reader.rs: read_unicode_string"]}
{"id": "C208", "title": "Vector arithmetic", "statement": "Sums, differences and products of Vector2D that fit i32 are exact; subtracting a vector undoes adding it even if the sum overflowed; quotients round toward zero.", "quantifier": "all vectors", "why_tests_cant": "2^128 pairs", "anchors": ["src/property/vector.rs: add", "src/property/vector.rs: sub", "src/property/vector.rs: mul", "src/property/vector.rs: div"]}
{"id": "C209", "title": "Vector arithmetic has the right sign", "statement": "The sum and product of positive vectors are positive.", "quantifier": "all vectors", "why_tests_cant": "false for overflowing pairs only", "anchors": ["src/property/vector.rs: add", "src/property/vector.rs: mul"]}
{"id": "C210", "title": "When vector division panics", "statement": "Dividing vectors panics exactly if a component of the divisor is zero or a component i32::MIN is divided by -1.", "quantifier": "all vectors", "why_tests_cant": "both directions over 2^128 pairs", "anchors": ["src/property/vector.rs: div"]}
{"id": "C211", "title": "Distance is symmetric", "statement": "Vector2D::distance is the same f64 in both directions and zero from a vector to itself, also if the differences overflow.", "quantifier": "all vectors", "why_tests_cant": "2^128 pairs, bit-exact f64", "anchors": ["src/property/vector.rs: distance"]}
{"id": "C212", "title": "Distance is the distance", "statement": "Vector2D::distance is close to the Euclidean distance of the points.", "quantifier": "all vectors", "why_tests_cant": "false if a difference overflows i32", "anchors": ["src/property/vector.rs: distance"]}
{"id": "C213", "title": "Sharing a decryptor is not seen", "statement": "Decryptors are shared between readers and grow as they are used. Whatever was done before with any of them (asking by type, version or IV, making readers, growing, asking key bytes, decoding, encoding, setting package-2 keys), resolve_wz_string_meta gives what a lone reader with the same IV and package-2 key would give.", "quantifier": "all sequences of uses, all readers, string types, ranges and buffers", "why_tests_cant": "The key buffer is global mutable state whose content depends on everything the process did before; a test sees one history.", "anchors": ["src/reader.rs:128-154", "src/reader.rs:925-945", "src/util/string_decryptor/mod.rs:190-246"]}
{"id": "C214", "title": "What a reader encodes it decodes", "statement": "encrypt_str with type Ascii or Unicode followed by resolve_wz_string_meta with the number of bytes gives the text back, also later, also from another reader with the same keys, wherever the bytes stand.", "quantifier": "all Unicode texts, all IVs and package-2 keys, all histories before and between, all surroundings", "why_tests_cant": "Text, key and history are unbounded; the tests try four texts under fresh keys.", "anchors": ["src/reader.rs:253-260", "src/property/string.rs:177-229", "src/reader.rs:128-154"]}
{"id": "C215", "title": "Names are decoded as encoded under one key", "statement": "encrypt_str with type Pkg2Dir followed by decoding gives the name back if the reader's strings and names are under the same key.", "quantifier": "all Unicode texts, keys, histories, surroundings", "why_tests_cant": "Unbounded texts, keys and histories.", "anchors": ["src/reader.rs:253-260", "src/property/string.rs:216-227", "src/reader.rs:120-127"]}
{"id": "C216", "title": "Names are decoded as encoded by every reader", "statement": "encrypt_str with type Pkg2Dir followed by decoding with the same reader gives the name back.", "quantifier": "all readers, all names", "why_tests_cant": "Only a reader whose two keys differ shows it, and those are the readers of package-2 files.", "anchors": ["src/reader.rs:253-260", "src/reader.rs:204-216", "src/reader.rs:714-718"]}
{"id": "C217", "title": "The keys of a reader are those it was made with", "statement": "with_existing_keys decodes strings and names under the given decryptor, or strings plainly if that is a package-2 decryptor; with_iv decodes strings under the IV and names plainly; a new reader decodes both plainly; a slice reader decodes like its reader.", "quantifier": "all decryptors, IVs, histories, strings, buffers", "why_tests_cant": "Four constructors share global state; tests look at one file each.", "anchors": ["src/reader.rs:181-216", "src/reader.rs:241-251", "src/reader.rs:285-314"]}
{"id": "C218", "title": "Decryptors asked for by type", "statement": "get_decryptor gives the shared decryptor of the type, and for KMST1199 and KMST1202 one that nobody else has, with the zero key.", "quantifier": "all types but Custom, all histories", "why_tests_cant": "That nobody else has it is a statement about all other handles.", "anchors": ["src/util/string_decryptor/mod.rs:199-211"]}
{"id": "C219", "title": "Every decryptor type can be asked for", "statement": "get_decryptor gives a decryptor for every DecrypterType.", "quantifier": "all types", "why_tests_cant": "Only the Custom type fails, and no test asks for it.", "anchors": ["src/util/string_decryptor/mod.rs:199-211", "src/util/string_decryptor/mod.rs:232-246"]}
{"id": "C220", "title": "The package-2 key of a new reader is its own", "statement": "Setting the package-2 key of a new reader changes no string or name decoded by the readers there were before.", "quantifier": "all histories, earlier readers, keys, strings", "why_tests_cant": "Non-interference over shared state: every other reader has to be looked at.", "anchors": ["src/reader.rs:181-194", "src/file.rs:371-382"]}
{"id": "C221", "title": "Decryptors of one hash have the same keys", "statement": "Two decryptors with the same get_iv_hash decrypt alike.", "quantifier": "all keys", "why_tests_cant": "Needs two 64-bit keys that agree in the lower half only.", "anchors": ["src/util/string_decryptor/pkg2_decryptor.rs:29-52", "src/util/string_decryptor/pkg2_decryptor.rs:67-69"]}
{"id": "C222", "title": "The hash of a decryptor tells its IV", "statement": "get_iv_hash gives the IV as a little-endian number, or the lower half of the package-2 key, whatever the decryptor was used for; AES decryptors with the same hash have the same IV.", "quantifier": "all histories, IVs, keys", "why_tests_cant": "All 2^32 IVs and all histories.", "anchors": ["src/util/string_decryptor/ecb_decryptor.rs:68-70", "src/util/string_decryptor/pkg2_decryptor.rs:67-69"]}
{"id": "C223", "title": "A package is its content", "statement": "A classic .wz file opened with its version (with no IV, the right one, or one that does not fit) and parsed serves its whole content through at_path_parsed: the path to a directory, image or property gives the node of that kind and value (the last one of its name), with the full path of the file name and the path; a path with a missing name gives NodeNotFound. It makes no difference which paths were asked for before, found or not, although each of them reads and fills part of the tree.", "quantifier": "all files laid out in the classic format, any of the three keys, any directory tree, any linkless property trees, all paths, all histories of lookups", "why_tests_cant": "Joins header, key guess, version, directories, offsets, strings, properties, lazy parsing and lookup for trees of any depth; tests open a few fixed files.", "anchors": ["src/node.rs:174-229", "src/node.rs:434-447", "src/file.rs:74-214", "src/directory.rs:113-331", "src/wz_image.rs:151-220", "src/util/parse_property.rs:29-406"]}
{"id": "C224", "title": "A node found is found again", "statement": "In such a file the node at_path_parsed has given for a path is the one that at_path and at_path_parsed give for it after any further lookups: parsing happens once and loses or replaces nothing that has been handed out.", "quantifier": "as C223, all paths and all lookups before and after", "why_tests_cant": "Lazy parsing inserts into the tree between the two lookups; a test sees single interleavings.", "anchors": ["src/node.rs:174-229", "src/node.rs:417-447"]}
{"id": "C225", "title": "A 64-bit package 2 file is its content", "statement": "C223 and C224 for package 2 files with 64-bit hashes, opened with nothing known about them.", "quantifier": "all files laid out in that format whose count does not look like an entry (C154), all linkless property trees, all paths, all histories", "why_tests_cant": "As C223.", "anchors": ["src/node.rs:174-229", "src/node.rs:434-447", "src/file.rs:215-330", "src/directory.rs:113-331", "src/wz_image.rs:151-220"]}
{"id": "C226", "title": "Broken texts", "statement": "Decoding a stored string never refuses bytes that are there. The text is the stored characters in order, with one U+FFFD for each maximal part of a broken UTF-8 character (8-bit strings) and for each lone half of a surrogate pair (16-bit strings), and no other text.", "quantifier": "all byte contents, all keys, all four string types", "why_tests_cant": "The bytes of a string read with a wrong or unknown key are arbitrary; a test has a few broken sequences at most.", "anchors": ["src/reader.rs:100-154"]}
{"id": "C227", "title": "A forced walk tours the package", "statement": "walk_node with force_parse over an opened classic .wz file, started at any time between lookups and other forced walks, ends and calls f exactly once for every directory, image and property of the file (the last one of each name), parents before children. When f is called with a node, the node has its kind and value and its full path. Afterwards every image has let go of its children, and lookups serve the whole content as before.", "quantifier": "all files laid out in the classic format, any directory and linkless property trees, every order in which the hash maps give the children, all histories of lookups and forced walks", "why_tests_cant": "The walk reads and drops parts of the tree while it goes through it, in an order that differs from run to run; tests walk a fixed tree built in memory, without parsing.", "anchors": ["src/util/walk.rs:6-23", "src/node.rs:174-248", "src/node.rs:434-447", "src/file.rs:74-214", "src/directory.rs:113-331", "src/wz_image.rs:151-220"]}
{"id": "C228", "title": "A forced walk through a package with 64-bit hashes", "statement": "The same as C227 for a package with 64-bit hashes, of which neither version nor key need be known.", "quantifier": "all such files, trees, orders and histories", "why_tests_cant": "As C227; no test has such a file with images to walk.", "anchors": ["src/util/walk.rs:6-23", "src/node.rs:174-248", "src/node.rs:434-447", "src/file.rs:74-214", "src/directory.rs:113-331", "src/wz_image.rs:151-220", "src/directory.rs: resolve_entry_pkg2_v64"]}
{"id": "C229", "title": "Directories and images stay the same nodes", "statement": "In an opened classic file, the node that a path to a directory or image gave is the one that at_path gives for it ever after, whatever lookups and forced walks came between.", "quantifier": "all files, paths and histories as in C227", "why_tests_cant": "Callers keep such nodes; which lookups and walks run in between is up to them.", "anchors": ["src/util/walk.rs:6-23", "src/node.rs:174-248", "src/node.rs:434-447", "src/file.rs:74-214", "src/directory.rs:113-331", "src/wz_image.rs:151-220"]}
{"id": "C230", "title": "Property nodes stay the same nodes", "statement": "The node that a path to a property gave is the one the path leads to afterwards, also after a forced walk.", "quantifier": "all files and histories", "why_tests_cant": "As C229.", "anchors": ["src/util/walk.rs:6-23", "src/node.rs:174-248", "src/node.rs:434-447", "src/file.rs:74-214", "src/directory.rs:113-331", "src/wz_image.rs:151-220"]}
{"id": "C231", "title": "When changing the IV takes effect", "statement": "set_iv on a decryptor takes effect exactly when no key byte has been needed before: the stream is then that of the new IV for every later use (the zero IV is then a stream like any other, not \"no encryption\"); if a key byte has been needed, the stream stays that of the old IV for ever. A decryptor made with the zero IV goes on leaving data as it is, whatever IV is set.", "quantifier": "all old and new IVs (u64), all sequences of uses before and after", "why_tests_cant": "The outcome depends on the whole history; the key of a file is changed by update_keys after guesses have already used it.", "anchors": ["src/util/string_decryptor/ecb_decryptor.rs:64-67", "src/util/string_decryptor/ecb_decryptor.rs:76-156"]}
{"id": "C232", "title": "decrypt_slice without growing", "statement": "decrypt_slice grows no key: on a decryptor with a non-zero IV and any history it decrypts data for which the key bytes are there, leaves empty data empty, and panics on longer data.", "quantifier": "all IVs, histories and data", "why_tests_cant": "Whether it panics depends on which sizes were asked for before, rounded up to 4096.", "anchors": ["src/util/string_decryptor/ecb_decryptor.rs:97-105"]}
{"id": "C233", "title": "Asking the version generator on", "statement": "The answers of VersionGen::next are the V3 candidates, the V2 candidates and the V1 candidate, in this order, where a scheme without candidates answers None once; after that None for ever. So a caller that goes on after None misses no candidate, and one that stops at the first None misses everything behind an empty scheme (C15).", "quantifier": "all header hash pairs, any number of calls", "why_tests_cant": "The state of the iterator depends on which schemes have candidates.", "anchors": ["src/util/version/pkg2.rs: VersionGen Iterator::next"]}
{"id": "C234", "title": "Newest client generation first", "statement": "A PKG2 package with 32-bit hashes written by a client of some generation, with no earlier result in the profile cache that fits its header, is opened as one of that generation or of a newer one, never as one of an older one.", "quantifier": "all packages, trees, generations and hashes the search can find", "why_tests_cant": "The first hash that decodes wins, among up to 2^32 candidates per generation; which package it is cannot be enumerated.", "anchors": ["src/file.rs:215-303", "src/util/profile.rs:48-137"]}
{"id": "C235", "title": "Generation 1199 is never reported", "statement": "No file whatever is reported as KMST 1199, and no entry for 1199 is put in the profile cache, unless the cache already has one: whatever 1199 can open is opened as 1201 before.", "quantifier": "all byte strings, keys, requested versions, and caches without an entry of 1199", "why_tests_cant": "A negative fact about all files.", "anchors": ["src/file.rs:215-303", "src/util/profile.rs:48-137"]}
{"id": "C236", "title": "Requested versions of any size", "statement": "A requested version of a classic package may be any 32-bit number other than -1: its decimal notation, with the sign if there is one, is hashed modulo 2^32, and it is used exactly if the hash is not 0 and folds to the version field or the version equals the field.", "quantifier": "all fields, all 32-bit versions but -1", "why_tests_cant": "2^32 versions times 65536 fields.", "anchors": ["src/util/version/pkg1.rs:17-46", "src/file.rs:152-200"]}
{"id": "C237", "title": "The generation reported is the one that wrote the package", "statement": "A PKG2 package is reported as of the client generation that wrote it.", "quantifier": "all packages and generations", "why_tests_cant": "see C234", "anchors": ["src/file.rs:215-303", "src/util/profile.rs:48-137"]}
{"id": "C238", "title": "Everything in an archive is found by path", "statement": "An .ms archive of either version whose images are property images opens and parses; then, whatever was looked up before, following a path of names without slashes with at_path_parsed gives the property, image or archive that is there, with its full path, and fails exactly for the paths that lead nowhere; the node found for a path stays the one it leads to.", "quantifier": "all archives of both versions, images, property trees without links, earlier lookups and paths", "why_tests_cant": "Whole archives are not among the test data; whether every content of every archive is found depends on the tables, the keys of every entry, the image parser and the bookkeeping of the tree together.", "anchors": ["src/ms/file.rs:46-235", "src/node.rs:124-133,174-229,434-447", "src/ms/ms_image.rs:1-120"]}
{"id": "C239", "title": "Walking through an archive", "statement": "A forced walk over an opened archive, at any time, calls the function once for every node in it, parents first, with the right content and full path; afterwards every image has let go of its children and lookups find everything as before.", "quantifier": "all archives of both versions, walks in any order of children, earlier uses", "why_tests_cant": "Whole archives are not among the test data; whether every content of every archive is found depends on the tables, the keys of every entry, the image parser and the bookkeeping of the tree together.", "anchors": ["src/ms/file.rs:46-235", "src/node.rs:124-133,174-229,434-447", "src/ms/ms_image.rs:1-120", "src/util/walk.rs:6-23"]}
{"id": "C240", "title": "Images of an archive by name", "statement": "At any time `at` on the archive node gives, for the name of an entry (the last of that name), the node of its image, even if the name contains slashes, and nothing for other names.", "quantifier": "all archives of both versions and names, after any lookups and walks", "why_tests_cant": "Whole archives are not among the test data; whether every content of every archive is found depends on the tables, the keys of every entry, the image parser and the bookkeeping of the tree together.", "anchors": ["src/ms/file.rs:46-235", "src/node.rs:124-133,174-229,434-447", "src/ms/ms_image.rs:1-120", "src/node.rs:375-380"]}
{"id": "C241", "title": "Images of an archive by path", "statement": "The name of an entry of an archive, given as path, leads to its image.", "quantifier": "all archives and entries", "why_tests_cant": "Test archives have flat names or are not looked up by path.", "anchors": ["src/ms/file.rs:46-235", "src/node.rs:124-133,174-229,434-447", "src/ms/ms_image.rs:1-120"]}
{"id": "C242", "title": "Everything in an image file is found by path", "statement": "An image file laid out under the key of a region opens without an IV or with that of the region; once parsed, lookups below it give what is in it and fail for everything else, and found nodes stay.", "quantifier": "all image files of the three regions, property trees without links, lookups", "why_tests_cant": "The key is guessed from the first bytes, and the result of a lookup depends on what was read before.", "anchors": ["src/node.rs:138-165", "src/wz_image.rs:83-116", "src/node.rs:174-229,434-447"]}
{"id": "C243", "title": "Image files after walks", "statement": "At any time a forced walk over an opened image file visits all of it once; whatever lookups and forced walks were done, parsing the node again makes every lookup give what is in the file.", "quantifier": "all image files of the three regions, all histories of lookups and forced walks", "why_tests_cant": "Whole archives are not among the test data; whether every content of every archive is found depends on the tables, the keys of every entry, the image parser and the bookkeeping of the tree together.", "anchors": ["src/node.rs:138-165", "src/wz_image.rs:83-116", "src/node.rs:174-229,434-447", "src/util/walk.rs:6-23"]}
{"id": "C244", "title": "Lookups in image files after walks", "statement": "After a forced walk over an image file, lookups find what they found before.", "quantifier": "all image files", "why_tests_cant": "Lookups after walks are not tested, and with packages they work.", "anchors": ["src/node.rs:138-165", "src/wz_image.rs:83-116", "src/node.rs:174-229,434-447", "src/util/walk.rs:6-23"]}
{"id": "C245", "title": "Packages without a version field", "statement": "A package without a version field, laid out under the key of a region with the offsets of version 770, is opened and read back in full with version 770, whether no version is given or 770.", "quantifier": "all such packages, trees, keys of the three regions and offered IVs", "why_tests_cant": "Which version is taken depends on all lower versions and on the whole directory; tests open a few packages whose version is known.", "anchors": ["src/file.rs:73-213,324-362", "src/node.rs:95-123,174-229,434-447"]}
{"id": "C246", "title": "Everything in a package without a version field", "statement": "Such a package, parsed, serves its content: at any time after any lookups and forced walks each path gives what is there with its full path or fails if nothing is, walks visit everything once, and found nodes stay while nothing but lookups is done.", "quantifier": "all such packages, contents without links, histories of lookups and walks, paths", "why_tests_cant": "Which version is taken depends on all lower versions and on the whole directory; tests open a few packages whose version is known.", "anchors": ["src/file.rs:73-213,324-362", "src/node.rs:95-123,174-229,434-447", "src/util/walk.rs:6-23"]}
{"id": "C247", "title": "Detection of the lowest fitting version", "statement": "If no lower version has the same version field, a classic package opened without a version is read back in full with its version.", "quantifier": "all classic packages of versions 1 to 2000, trees, keys of the three regions and offered IVs", "why_tests_cant": "Which version is taken depends on all lower versions and on the whole directory; tests open a few packages whose version is known.", "anchors": ["src/file.rs:73-213,324-362", "src/node.rs:95-123,174-229,434-447"]}
{"id": "C248", "title": "Everything in a package whose version is detected", "statement": "Such a package, opened without a version and parsed, serves its content as in C246.", "quantifier": "all such packages, contents without links, histories of lookups and walks, paths", "why_tests_cant": "Which version is taken depends on all lower versions and on the whole directory; tests open a few packages whose version is known.", "anchors": ["src/file.rs:73-213,324-362", "src/node.rs:95-123,174-229,434-447", "src/util/walk.rs:6-23"]}
{"id": "C249", "title": "Everything in a package with 32-bit counts", "statement": "A PKG2 package with 32-bit counts and no recognised key, whose hash is cached or can be found by searching, is never refused; if its own hash is taken (under its offset scheme), it serves its content as in C246.", "quantifier": "all such packages, contents without links, caches, histories of lookups and walks, paths", "why_tests_cant": "The hash is found by trial over generations and candidates; the tests have no such packages.", "anchors": ["src/file.rs:73-213,324-362", "src/node.rs:95-123,174-229,434-447", "src/file.rs:215-322"]}
{"id": "C250", "title": "Everything in a package with the fixed key", "statement": "The same for packages whose names are under the fixed key, with a first name of 8 to 127 ASCII characters.", "quantifier": "all such packages, contents without links, caches, histories of lookups and walks, paths", "why_tests_cant": "The key is recognised from the first name only; the tests have no such packages.", "anchors": ["src/file.rs:73-213,324-362", "src/node.rs:95-123,174-229,434-447", "src/file.rs:215-322"]}
{"id": "C251", "title": "Images with links", "statement": "Parsing an image, wherever its node is in a tree, resolves its links: every path below it either leads, through the links, to a place of the image, and then the lookup gives the node of that place, with its content and its own full path; or something is missing on the way, and the lookup is refused. A link that leads out of the image or nowhere stays as a link that nothing is below.", "quantifier": "all images with such links, positions in a tree, and paths", "why_tests_cant": "Links may be nested anywhere, lead up and down, into each other's neighbourhood, out of the image or nowhere; tests read a few images with well-behaved links.", "anchors": ["src/node.rs:174-229,434-447", "src/util/node_util.rs: resolve_uol, get_resolved_uol_path", "src/wz_image.rs:118-230"]}
{"id": "C252", "title": "Images with links in archives", "statement": "The same for an image in an MS archive, unpacked when it is parsed.", "quantifier": "all images with such links, positions in a tree, and paths", "why_tests_cant": "Links may be nested anywhere, lead up and down, into each other's neighbourhood, out of the image or nowhere; tests read a few images with well-behaved links.", "anchors": ["src/node.rs:174-229,434-447", "src/util/node_util.rs: resolve_uol, get_resolved_uol_path", "src/wz_image.rs:118-230", "src/ms/ms_image.rs"]}
{"id": "C253", "title": "Image files with links", "statement": "The same for an .img file opened on its own, with or without a given IV: opened and parsed it serves its content through the links.", "quantifier": "all images with such links, positions in a tree, and paths", "why_tests_cant": "Links may be nested anywhere, lead up and down, into each other's neighbourhood, out of the image or nowhere; tests read a few images with well-behaved links.", "anchors": ["src/node.rs:174-229,434-447", "src/util/node_util.rs: resolve_uol, get_resolved_uol_path", "src/wz_image.rs:118-230", "src/node.rs:138-165", "src/wz_image.rs:83-116"]}
{"id": "C254", "title": "Pictures from a package", "statement": "In a classic package opened with its version, and whatever has been asked before: the path to a canvas finds it, and asking for its picture gives the stored pixels of the canvas it stands for (following its inlink; its own if the inlink leads nowhere), pixel by pixel as its format says. Where the links end at something that is no canvas, the answer is an error. The tree is left as it was.", "quantifier": "all files laid out as described, paths, earlier lookups, and decompressors", "why_tests_cant": "Between the file and the pixels stand key, version, directory, property tree, links and pixel format; tests follow a few pictures of a few files and cannot cover their combinations.", "anchors": ["src/property/png.rs:55-81,182-209,278-330", "src/util/node_util.rs:10-28", "src/node.rs:174-229,434-447"]}
{"id": "C255", "title": "Pictures from a package with 64-bit hashes", "statement": "The same for a package with 64-bit hashes, about which nothing has to be known.", "quantifier": "all files laid out as described, paths, earlier lookups, and decompressors", "why_tests_cant": "Between the file and the pixels stand key, version, directory, property tree, links and pixel format; tests follow a few pictures of a few files and cannot cover their combinations.", "anchors": ["src/property/png.rs:55-81,182-209,278-330", "src/util/node_util.rs:10-28", "src/node.rs:174-229,434-447"]}
{"id": "C256", "title": "Pictures from an image file", "statement": "The same for an .img file opened on its own, with its IV or with none given, whatever its name.", "quantifier": "all files laid out as described, paths, earlier lookups, and decompressors", "why_tests_cant": "Between the file and the pixels stand key, version, directory, property tree, links and pixel format; tests follow a few pictures of a few files and cannot cover their combinations.", "anchors": ["src/property/png.rs:55-81,182-209,278-330", "src/util/node_util.rs:10-28", "src/node.rs:174-229,434-447", "src/node.rs:138-165"]}
{"id": "C257", "title": "Sounds, raw data and videos from a package or image file", "statement": "Whatever has been asked before, the path to a sound, raw data or a video finds it, and its buffer is what is stored for it: the bytes themselves, or for a sound with a WAV header a WAV file of them.", "quantifier": "all files laid out as described, paths, earlier lookups, and decompressors", "why_tests_cant": "Between the file and the pixels stand key, version, directory, property tree, links and pixel format; tests follow a few pictures of a few files and cannot cover their combinations.", "anchors": ["src/property/sound.rs:70-160", "src/property/raw_data.rs:20-28", "src/property/video.rs:20-28", "src/node.rs:174-229,434-447"]}
{"id": "C258", "title": "Pictures from a package called Base", "statement": "In a classic package called 'Base', opened with its version, and whatever has been asked before: the path to a canvas finds it, and asking for its picture gives the stored pixels of the canvas it stands for, following inlinks (counted from the image) and, where there is none that leads somewhere, outlinks (counted from the file, reading what is not read yet); its own where the links lead nowhere. Where the links end at something that is no canvas, the answer is an error. Afterwards the package serves its whole content as before.", "quantifier": "all files laid out as described, paths, earlier lookups, and decompressors", "why_tests_cant": "An outlink counts from the file called Base and may lead into images not read yet, which are then read while other nodes are locked; tests follow a few links between a few files and cannot cover where links lead and what was read before.", "anchors": ["src/property/png.rs:55-81,182-209,278-330", "src/util/node_util.rs:10-28", "src/node.rs:174-229,434-447"]}
{"id": "C259", "title": "Pictures from a package with 64-bit hashes called Base", "statement": "The same for a package with 64-bit hashes, about which nothing has to be known.", "quantifier": "all files laid out as described, paths, earlier lookups, and decompressors", "why_tests_cant": "An outlink counts from the file called Base and may lead into images not read yet, which are then read while other nodes are locked; tests follow a few links between a few files and cannot cover where links lead and what was read before.", "anchors": ["src/property/png.rs:55-81,182-209,278-330", "src/util/node_util.rs:10-28", "src/node.rs:174-229,434-447"]}
{"id": "C260", "title": "Pictures from an archive", "statement": "In an .ms archive of either version, and whatever has been asked before: the path to a canvas finds it, and asking for its picture gives the pixels stored in that image for the canvas it stands for (following its inlink; its own if the inlink leads nowhere), pixel by pixel as its format says. Where the links end at something that is no canvas, the answer is an error. The tree is left as it was.", "quantifier": "all archives of both versions, images, property trees without UOL links, paths, earlier lookups, and decompressors", "why_tests_cant": "Between the archive and the pixels stand the tables, two ciphers, an own reader for every image, the property tree, links and pixel formats; tests follow a few pictures of a few files and cannot cover their combinations.", "anchors": ["src/property/png.rs:55-81,182-209,278-330", "src/util/node_util.rs:10-28", "src/ms/ms_image.rs:1-120", "src/node.rs:124-133,174-229,434-447"]}
{"id": "C261", "title": "Sounds, raw data and videos from an archive", "statement": "Whatever has been asked before, the path to a sound, raw data or a video in an archive finds it, and its buffer is what is stored for it in that image: the bytes themselves, or for a sound with a WAV header a WAV file of them.", "quantifier": "all archives of both versions, images, property trees without UOL links, paths, earlier lookups, and decompressors", "why_tests_cant": "Between the archive and the pixels stand the tables, two ciphers, an own reader for every image, the property tree, links and pixel formats; tests follow a few pictures of a few files and cannot cover their combinations.", "anchors": ["src/property/sound.rs:70-160", "src/property/raw_data.rs:20-28", "src/property/video.rs:20-28", "src/ms/ms_image.rs:1-120", "src/node.rs:124-133,174-229,434-447"]}
{"id": "C262", "title": "Where asking for a picture waits for ever", "statement": "In a package called 'Base', whatever has been asked before: if following the links from a canvas comes to an outlink whose path goes on beyond a canvas that was passed on the way (or beyond the canvas that has it), then the canvas is found by its path, but asking for its picture never returns: the outlink wants to lock for writing a canvas that the call itself still holds for reading. This is so however long the chain of inlinks and outlinks before it is.", "quantifier": "all classic packages and all with 64-bit hashes opened under the name 'Base', images, property trees without UOL links, canvases, link chains of any length, earlier lookups, and decompressors", "why_tests_cant": "Only some link structures block or go round, and a blocked or endless call never comes back to fail a test; whether one does depends on everything between the canvas asked for and the package.", "anchors": ["src/property/png.rs:55-81", "src/util/node_util.rs:10-28", "src/node.rs:174-229,434-447,492-521"]}
{"id": "C263", "title": "Links that go round never give a picture", "statement": "In a package called 'Base', whatever has been asked before: if following the links from a canvas comes into a set of canvases among which links lead round (inlinks, or outlinks that do not go on beyond one of them or one passed before), then the canvas is found, but asking for its picture gives no answer at any depth of calls: neither a picture nor an error ever comes.", "quantifier": "all classic packages and all with 64-bit hashes opened under the name 'Base', images, property trees without UOL links, canvases, link chains of any length, earlier lookups, and decompressors", "why_tests_cant": "Only some link structures block or go round, and a blocked or endless call never comes back to fail a test; whether one does depends on everything between the canvas asked for and the package.", "anchors": ["src/property/png.rs:55-81", "src/util/node_util.rs:10-28", "src/node.rs:174-229,434-447,492-521"]}
{"id": "C264", "title": "Given, waited for or sought without end", "statement": "In a package called 'Base' whose canvas links are paths (names that are not empty, with slashes between), whatever has been asked before: at every path that leads somewhere, asking for the picture either gives the picture (or the error) that C258 and C259 name, or waits for ever as in C262, or goes on without end as in C263. So in a package where no outlink leads below a canvas passed before and no links go round, every node has its answer.", "quantifier": "all classic packages and all with 64-bit hashes opened under the name 'Base', images, property trees without UOL links, canvases, link chains of any length, earlier lookups, and decompressors", "why_tests_cant": "Only some link structures block or go round, and a blocked or endless call never comes back to fail a test; whether one does depends on everything between the canvas asked for and the package.", "anchors": ["src/property/png.rs:55-81", "src/util/node_util.rs:10-28", "src/node.rs:174-229,434-447,492-521"]}
{"id": "C265", "title": "Classic packages whose images have links", "statement": "In a classic package opened with its version, whose images may have UOL links: every path is decided by the stored content alone. If it leads, down the directories and then through the links of an image, to a place, at_path_parsed gives the node that stands for that place, with its value, and with the full path of the place itself rather than the one asked for; if something is missing on the way the lookup is refused with NodeNotFound; and there is no third case. It makes no difference which paths were asked for before, and the node found stays the one the path gives, with and without parsing, whatever is asked for afterwards.", "quantifier": "all files laid out in the classic format, the three keys, directory trees, property trees with simple links, all paths and histories of lookups", "why_tests_cant": "Links are resolved when their image is first touched, in the middle of a lookup, and rewire the tree; whether a path through them gives the right node depends on everything in the image and on what was asked before.", "anchors": ["src/node.rs:174-229", "src/node.rs:434-447", "src/util/node_util.rs: resolve_uol, get_resolved_uol_path", "src/wz_image.rs:118-230", "src/directory.rs:113-331", "src/file.rs:74-214"]}
{"id": "C266", "title": "Packages with 64-bit hashes whose images have links", "statement": "In a package with 64-bit hashes, whose images may have UOL links: every path is decided by the stored content alone. If it leads, down the directories and then through the links of an image, to a place, at_path_parsed gives the node that stands for that place, with its value, and with the full path of the place itself rather than the one asked for; if something is missing on the way the lookup is refused with NodeNotFound; and there is no third case. It makes no difference which paths were asked for before, and the node found stays the one the path gives, with and without parsing, whatever is asked for afterwards.", "quantifier": "all files laid out in the format with 64-bit hashes, directory trees, property trees with simple links, all paths and histories of lookups", "why_tests_cant": "Links are resolved when their image is first touched, in the middle of a lookup, and rewire the tree; whether a path through them gives the right node depends on everything in the image and on what was asked before.", "anchors": ["src/node.rs:174-229", "src/node.rs:434-447", "src/util/node_util.rs: resolve_uol, get_resolved_uol_path", "src/wz_image.rs:118-230", "src/directory.rs:113-331", "src/file.rs:74-214"]}
{"id": "C267", "title": "Archives whose images have links", "statement": "In an .ms archive of version 1 or 2, whose images may have UOL links: every path is decided by the stored content alone. If it leads, down the directories and then through the links of an image, to a place, at_path_parsed gives the node that stands for that place, with its value, and with the full path of the place itself rather than the one asked for; if something is missing on the way the lookup is refused with NodeNotFound; and there is no third case. It makes no difference which paths were asked for before, and the node found stays the one the path gives, with and without parsing, whatever is asked for afterwards.", "quantifier": "all archives of both versions, property images with simple links, all paths and histories of lookups", "why_tests_cant": "Links are resolved when their image is first touched, in the middle of a lookup, and rewire the tree; whether a path through them gives the right node depends on everything in the image and on what was asked before.", "anchors": ["src/node.rs:174-229", "src/node.rs:434-447", "src/util/node_util.rs: resolve_uol, get_resolved_uol_path", "src/wz_image.rs:118-230", "src/ms/file.rs: parse", "src/ms/ms_image.rs: to_wz_image"]}
{"id": "C268", "title": "Packages of unknown version whose images have links", "statement": "In a classic package without a version field, opened with no version or with 770, or one with a field whose version is the lowest that fits it, opened with no version, whose images may have UOL links: every path is decided by the stored content alone. If it leads, down the directories and then through the links of an image, to a place, at_path_parsed gives the node that stands for that place, with its value, and with the full path of the place itself rather than the one asked for; if something is missing on the way the lookup is refused with NodeNotFound; and there is no third case. It makes no difference which paths were asked for before, and the node found stays the one the path gives, with and without parsing, whatever is asked for afterwards.", "quantifier": "all such files, the three keys, directory trees, property trees with simple links, all paths and histories of lookups", "why_tests_cant": "Links are resolved when their image is first touched, in the middle of a lookup, and rewire the tree; whether a path through them gives the right node depends on everything in the image and on what was asked before.", "anchors": ["src/node.rs:174-229", "src/node.rs:434-447", "src/util/node_util.rs: resolve_uol, get_resolved_uol_path", "src/wz_image.rs:118-230", "src/directory.rs:113-331", "src/file.rs:74-214"]}
{"id": "C269", "title": "A forced walk through a classic package whose images have links", "statement": "In a classic package opened with its version, whose images may have UOL links: a forced walk by walk_node, begun at any time and taking the children in any order, calls the visitor exactly once for every path that leads somewhere, down the directories and through links, a path before those that go on from it. Each call gets the node that stands for the place the path leads to, with its value and with the place's own full path; in the end every image has been let go. This is so exactly when no path is as long as the walk may go deep; if there are longer paths the walk does not come to its end. Lookups before, between and after such walks are answered as by the untouched file.", "quantifier": "all files laid out in the classic format, the three keys, directory trees, property trees with simple links, all orders of children, all histories of lookups and forced walks, all depths", "why_tests_cant": "A forced walk reads every image, resolves its links while its parents are locked, visits nodes again through the links, and lets images go on the way back; whether it ends, and what it has seen then, depends on how all the links of all the images hang together.", "anchors": ["src/util/walk.rs: walk_node", "src/node.rs:174-248", "src/util/node_util.rs: resolve_uol, get_resolved_uol_path", "src/wz_image.rs:118-230", "src/directory.rs:113-331"]}
{"id": "C270", "title": "A forced walk through a package with 64-bit hashes whose images have links", "statement": "In a package with 64-bit hashes, whose images may have UOL links: a forced walk by walk_node, begun at any time and taking the children in any order, calls the visitor exactly once for every path that leads somewhere, down the directories and through links, a path before those that go on from it. Each call gets the node that stands for the place the path leads to, with its value and with the place's own full path; in the end every image has been let go. This is so exactly when no path is as long as the walk may go deep; if there are longer paths the walk does not come to its end. Lookups before, between and after such walks are answered as by the untouched file.", "quantifier": "all files laid out in the format with 64-bit hashes, directory trees, property trees with simple links, all orders, histories and depths", "why_tests_cant": "A forced walk reads every image, resolves its links while its parents are locked, visits nodes again through the links, and lets images go on the way back; whether it ends, and what it has seen then, depends on how all the links of all the images hang together.", "anchors": ["src/util/walk.rs: walk_node", "src/node.rs:174-248", "src/util/node_util.rs: resolve_uol, get_resolved_uol_path", "src/wz_image.rs:118-230", "src/directory.rs:113-331"]}
{"id": "C271", "title": "A forced walk through an archive whose images have links", "statement": "In an .ms archive of version 1 or 2, whose images may have UOL links: a forced walk by walk_node, begun at any time and taking the children in any order, calls the visitor exactly once for every path that leads somewhere, down the directories and through links, a path before those that go on from it. Each call gets the node that stands for the place the path leads to, with its value and with the place's own full path; in the end every image has been let go. This is so exactly when no path is as long as the walk may go deep; if there are longer paths the walk does not come to its end. Lookups before, between and after such walks are answered as by the untouched file.", "quantifier": "all archives of both versions, property images with simple links, all orders, histories and depths", "why_tests_cant": "A forced walk reads every image, resolves its links while its parents are locked, visits nodes again through the links, and lets images go on the way back; whether it ends, and what it has seen then, depends on how all the links of all the images hang together.", "anchors": ["src/util/walk.rs: walk_node", "src/node.rs:174-248", "src/util/node_util.rs: resolve_uol, get_resolved_uol_path", "src/wz_image.rs:118-230", "src/ms/file.rs: parse", "src/ms/ms_image.rs: to_wz_image"]}
{"id": "C272", "title": "A forced walk through a package of unknown version whose images have links", "statement": "In a classic package without a version field, opened with no version or with 770, or one with a field whose version is the lowest that fits it, opened with no version, whose images may have UOL links: a forced walk by walk_node, begun at any time and taking the children in any order, calls the visitor exactly once for every path that leads somewhere, down the directories and through links, a path before those that go on from it. Each call gets the node that stands for the place the path leads to, with its value and with the place's own full path; in the end every image has been let go. This is so exactly when no path is as long as the walk may go deep; if there are longer paths the walk does not come to its end. Lookups before, between and after such walks are answered as by the untouched file.", "quantifier": "all such files, the three keys, directory trees, property trees with simple links, all orders, histories and depths", "why_tests_cant": "A forced walk reads every image, resolves its links while its parents are locked, visits nodes again through the links, and lets images go on the way back; whether it ends, and what it has seen then, depends on how all the links of all the images hang together.", "anchors": ["src/util/walk.rs: walk_node", "src/node.rs:174-248", "src/util/node_util.rs: resolve_uol, get_resolved_uol_path", "src/wz_image.rs:118-230", "src/directory.rs:113-331"]}
{"id": "C273", "title": "A forced walk through a package ends", "statement": "A forced walk by walk_node through any well-formed package returns.", "quantifier": "all well-formed packages", "why_tests_cant": "Needs a package with a link to a node above it.", "anchors": ["src/util/walk.rs: walk_node", "src/node.rs:174-248", "src/util/node_util.rs: resolve_uol, get_resolved_uol_path"]}
{"id": "C274", "title": "A link is the node it leads to", "statement": "In a package or archive, at any time (after any lookups and forced walks), two paths that lead to the same place, each down the directories and through whatever links, are answered by at_path_parsed with the very same node, not with a copy.", "quantifier": "all packages of the kinds of C265, C266 and C268 and all archives, property trees with simple links, all histories, all pairs of paths", "why_tests_cant": "There are as many paths to a place as there are ways through the links; that they all end at one shared node depends on how every link was resolved.", "anchors": ["src/node.rs:174-248", "src/util/node_util.rs: resolve_uol, get_resolved_uol_path", "src/node.rs: at_path_parsed", "src/wz_image.rs:118-230", "src/directory.rs:113-331", "src/ms/file.rs: parse"]}
{"id": "C275", "title": "A forced walk returns or deadlocks, and which of the two is settled by the links", "statement": "For every package or archive there is a depth such that a forced walk, begun at any time and taking the children in any order, returns if the paths do not go on for ever, and otherwise stops for good at a node it holds for reading and now wants to write to; it never goes deeper and deeper.", "quantifier": "all packages of the kinds of C265, C266 and C268 and all archives, property trees with simple links, all histories, all orders of children, all depths from that on", "why_tests_cant": "A test sees one walk end or hang; that no walk can do anything else takes a bound on the nodes a walk can hold at once, whatever the links.", "anchors": ["src/util/walk.rs: walk_node", "src/node.rs:174-248", "src/util/node_util.rs: resolve_uol, get_resolved_uol_path", "src/node.rs: at_path_parsed", "src/wz_image.rs:118-230", "src/directory.rs:113-331", "src/ms/file.rs: parse"]}
{"id": "C276", "title": "Pictures from a package whose images have links", "statement": "At any time (after any lookups and forced walks), asking for the picture at the end of a path that goes into an image and through whatever UOLs gives the pixels of the canvas the path stands for, following inlinks that themselves may go through UOLs; where it stands for no canvas the answer is NotPngProperty. Asking changes nothing.", "quantifier": "all packages of the kinds of C265, C266 and C268 not called Base, property trees with simple links, all histories, all paths and stored pictures", "why_tests_cant": "The picture depends on links inside links: UOLs on the way, inlinks whose target is reached through UOLs, and what an earlier lookup or walk has already resolved; a test follows one of these chains.", "anchors": ["src/property/png.rs:55-81,182-209,278-330", "src/util/node_util.rs: resolve_uol", "src/util/node_util.rs:10-28", "src/node.rs:174-248,434-447", "src/wz_image.rs:118-230"]}
{"id": "C277", "title": "Sounds, raw data and videos from a package whose images have links", "statement": "At any time, the sound, raw data or video at the end of a path through directories and UOLs gives exactly the stored bytes (a sound with a 70-byte header that is not told to be plain data as a WAV file).", "quantifier": "all packages of the kinds of C265, C266 and C268, property trees with simple links, all histories and paths", "why_tests_cant": "A link must hand out the data of what it leads to, with the right reader and offsets; a test checks some links of some file.", "anchors": ["src/property/sound.rs:70-160", "src/property/raw_data.rs:20-28", "src/property/video.rs:20-28", "src/util/node_util.rs: resolve_uol", "src/node.rs:174-248,434-447"]}
{"id": "C278", "title": "Pictures from an image file with links", "statement": "In an image file opened with its key or with none given, asking for the picture at the end of a path, through UOLs and inlinks that go through UOLs, gives the pixels of the canvas the path stands for, or NotPngProperty where it stands for none.", "quantifier": "all image files of up to 2 GiB, all regions, property trees with simple links, all earlier lookups, all paths and stored pictures", "why_tests_cant": "The picture depends on links inside links: UOLs on the way, inlinks whose target is reached through UOLs, and what an earlier lookup or walk has already resolved; a test follows one of these chains.", "anchors": ["src/property/png.rs:55-81,182-209,278-330", "src/util/node_util.rs: resolve_uol", "src/util/node_util.rs:10-28", "src/node.rs:174-248,434-447", "src/wz_image.rs:118-230"]}
{"id": "C279", "title": "Sounds, raw data and videos from an image file with links", "statement": "In an image file opened with its key or with none given, the sound, raw data or video at the end of a path through UOLs gives exactly the stored bytes.", "quantifier": "all image files of up to 2 GiB, all regions, property trees with simple links, all earlier lookups, all paths", "why_tests_cant": "A link must hand out the data of what it leads to; a test checks some links of some file.", "anchors": ["src/property/sound.rs:70-160", "src/property/raw_data.rs:20-28", "src/property/video.rs:20-28", "src/util/node_util.rs: resolve_uol", "src/node.rs:174-248,434-447"]}
{"id": "C280", "title": "Pictures from an archive whose images have links", "statement": "At any time (after any lookups and forced walks), asking for the picture at the end of a path into an image of an archive, through UOLs and inlinks that go through UOLs, gives the pixels of the canvas the path stands for, taken from the unpacked bytes of that very image, or NotPngProperty where it stands for none.", "quantifier": "all archives of both versions, property trees with simple links, all histories, all images, paths and stored pictures", "why_tests_cant": "The picture depends on links inside links: UOLs on the way, inlinks whose target is reached through UOLs, and what an earlier lookup or walk has already resolved; a test follows one of these chains.", "anchors": ["src/property/png.rs:55-81,182-209,278-330", "src/util/node_util.rs: resolve_uol", "src/util/node_util.rs:10-28", "src/node.rs:174-248,434-447", "src/wz_image.rs:118-230", "src/ms/ms_image.rs:1-120"]}
{"id": "C281", "title": "Sounds, raw data and videos from an archive whose images have links", "statement": "At any time, the sound, raw data or video at the end of a path into an image of an archive and through UOLs gives exactly the bytes stored in that image.", "quantifier": "all archives of both versions, property trees with simple links, all histories, images and paths", "why_tests_cant": "Every image of an archive is unpacked into a buffer of its own when it is first needed and let go by walks; that the data always comes from the right one takes an argument over all histories.", "anchors": ["src/property/sound.rs:70-160", "src/property/raw_data.rs:20-28", "src/property/video.rs:20-28", "src/util/node_util.rs: resolve_uol", "src/node.rs:174-248,434-447", "src/ms/ms_image.rs:1-120"]}
{"id": "C282", "title": "Walks that read nothing, over any file in any state", "statement": "Take any bytes opened as a package, an archive or an image file, and anything done with them since: nodes parsed, unparsed, looked up from and walked from, with any outcome. walk_node without force, from any node and in any order, changes nothing and never panics. If it returns, the callback was called exactly once for each path below the node, parents before children. It returns if and only if no path is longer than the recursion may go.", "quantifier": "all bytes, keys, versions, histories, nodes, orders of children and depths", "why_tests_cant": "Broken files and half-finished parsing leave trees no test builds, and links make shared nodes and cycles; a test walks one sound tree.", "anchors": ["src/util/walk.rs:6-23", "src/node.rs:174-248,434-447", "src/util/node_util.rs:57-106"]}
{"id": "C283", "title": "An unforced walk calls with what at_path finds", "statement": "In the same generality, if walk_node without force returns and no name below the node contains a slash, the nodes the callback was called with are the node itself and exactly those at_path finds from it.", "quantifier": "all bytes, keys, versions, histories, nodes, orders and depths", "why_tests_cant": "Two ways of going through the tree must agree on every state of every file.", "anchors": ["src/util/walk.rs:6-23", "src/node.rs:174-248,434-447", "src/util/node_util.rs:57-106", "src/node.rs:424-432"]}
{"id": "C284", "title": "A forced walk lets every image it met go, whatever the file", "statement": "Take any bytes opened as a package, an archive or an image file, and anything done with them since, with any outcome. If walk_node with force returns, from any node and in any order, every image the callback was called with is afterwards unparsed and without children, even if it had been parsed before the walk. Images that were so before stay so, met or not, and every image is still an image.", "quantifier": "all bytes, keys, versions, histories, nodes, orders of children and depths", "why_tests_cant": "Failed parses, shared nodes and images parsed before the walk occur in files no test has; a leak of one image shows only as memory.", "anchors": ["src/util/walk.rs:6-23", "src/node.rs:174-248", "src/util/node_util.rs:57-106"]}
