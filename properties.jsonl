{"id": "C01", "title": "Packet framing is exact", "statement": "Parsing the concatenation of any sequence of OpenPGP packets, each framed with any legal header (old format with 1, 2 or 4 length octets, new format with 1, 2 or 5 length octets, or new format split into any sequence of partial-length chunks), yields exactly one top-level item per packet, in order; each item is the item of that packet's tag and body, so its name shows the tag number and its note the exact number of body bytes, whatever framing was chosen.", "quantifier": "every finite sequence of packets, every tag 0..63, every body, every legal choice of length encoding per packet including every partial-length split", "why_tests_cant": "the number of framings and splits is unbounded; tests fix a handful of files", "anchors": ["parse/parse.go:Parser.Parse", "parse/tags/packets.go:Packets.Next", "parse/tags/tags.go:NewTag"]}
{"id": "C02", "title": "Damaged input never invents or loses earlier packets", "statement": "If parsing fails, Parse still returns the items of exactly the packets completed before the failing one, in order; and cutting a well-framed last packet anywhere before its end makes Parse report an error rather than show a shortened packet.", "quantifier": "every packet sequence, every truncation point inside the last packet", "why_tests_cant": "each truncation point of each file is a separate input", "anchors": ["parse/parse.go:Parser.Parse", "parse/tags/packets.go:Packets.Next"]}
{"id": "C03", "title": "Parsing always terminates within a depth set by the input", "statement": "For every input byte string and every option setting, parsing terminates: nested structures (embedded signatures, key blocks, compressed data) recurse only on strictly shorter byte strings, so a recursion budget equal to the body length is never exhausted.", "quantifier": "every byte string, every context", "why_tests_cant": "no finite set of inputs shows the absence of a diverging one", "anchors": ["parse/tags/sub32.go:sub32.Parse", "parse/tags/sub38.go:sub38.parseKeyData", "parse/tags/packets.go:Packets.Parse"]}
{"id": "C04", "title": "Parsing untrusted bytes never crashes", "statement": "For no input does parsing panic. (False of the code: a v5 secret key cut before its key-material length, and a plain secret key of unknown algorithm with exactly one byte left, both panic. Proved: those two situations are the only sources of panics; every input containing no secret-key packet at any level parses without a panic.)", "quantifier": "every byte string, every context", "why_tests_cant": "absence of crashes over all inputs cannot be sampled", "anchors": ["parse/tags/seckey.go:getField2", "parse/pubkey/parse_secplain.go:ParseSecPlain", "parse/reader/reader.go:ReadBytes"]}
{"id": "C05", "title": "Dump options only add hex dumps", "statement": "Changing any of the options cert, debug, gdump, int, literal, marker, private never changes success or failure, nor any item's name, value, note or position in the tree: only the dump fields may differ.", "quantifier": "every byte string, every pair of contexts that agree on armor and utc", "why_tests_cant": "a relation between two runs over all inputs", "anchors": ["parse/context/context.go", "parse/tags", "parse/values/dump.go"]}
{"id": "C06", "title": "Secret and bulk data stay hidden unless asked for", "statement": "With no dump option set, the output does not depend on the octets of multi-precision integers (beyond the length and, for EC points, the format octet), nor on literal data, marker, private-packet, encrypted or compressed payload octets: replacing them by others of the same length leaves the whole output unchanged.", "quantifier": "every packet of the given kinds, every payload, every replacement payload of equal length", "why_tests_cant": "secrecy is a relation between runs on all pairs of payloads", "anchors": ["parse/values/mpi.go:MPI.ToItem", "parse/pubkey", "parse/values/literal.go:RawData"]}
{"id": "C07", "title": "The UTC option changes only how times are written", "statement": "Setting or clearing the utc option changes only values and notes that show a date; structure, names, dumps, all other values and the success or failure of parsing stay the same. With utc set the output does not depend on the local time zone.", "quantifier": "every byte string, every context, every local time zone rule", "why_tests_cant": "a relation between runs for all inputs and all zones", "anchors": ["parse/values/datetime.go:unixtime2RFC3339", "parse/context/context.go:UTC"]}
{"id": "C08", "title": "Timestamps are shown exactly", "statement": "For every 32-bit time value the text shown is the RFC 3339 date-time that denotes exactly that number of seconds since 1970-01-01T00:00:00Z (proleptic Gregorian calendar), in UTC with suffix Z when utc is set, in the local offset otherwise.", "quantifier": "all 2^32 time values, every whole-minute zone offset up to a day", "why_tests_cant": "2^32 values times all offsets", "anchors": ["parse/values/datetime.go:unixtime2RFC3339"]}
{"id": "C09", "title": "Expiration dates are creation plus lifetime", "statement": "An expiration sub-packet with a known non-zero creation time shows the date creation + lifetime. (False of the code when the sum passes 2^32-1: it wraps to a date near 1970. Proved for all pairs whose sum stays below 2^32, and the wrapped value is characterised for the rest.)", "quantifier": "all pairs of 32-bit creation times and lifetimes", "why_tests_cant": "2^64 pairs", "anchors": ["parse/values/expire.go:Expire.ToItem"]}
{"id": "C10", "title": "Expiration dates use the creation time of the same signature or key", "statement": "The signature expiration date is computed from the creation time in the same signature, and the key expiration date from the key being certified. (False of the code: the creation time is left over from an earlier signature when the expiration sub-packet comes first, and is used up by the first expiration sub-packet. Proved: after a creation-time sub-packet in the same signature, with no expiration sub-packet in between, the date shown is based on it; the state transitions are characterised for every sub-packet history.)", "quantifier": "every sequence of sub-packets and packets", "why_tests_cant": "depends on unbounded packet histories", "anchors": ["parse/tags/sub02.go", "parse/tags/sub03.go", "parse/tags/sub09.go", "parse/tags/pubkey.go"]}
{"id": "C11", "title": "Encrypted data names the kind of session key that precedes it", "statement": "Along any packet stream, a Symmetrically Encrypted (integrity protected or not) data packet is labelled by the most recent session-key packet since the previous such packet: pub-key, sym-key, or neither.", "quantifier": "every finite sequence of packets", "why_tests_cant": "state machine over unbounded histories", "anchors": ["parse/context/symalgmode.go", "parse/tags/tag01.go", "parse/tags/tag03.go", "parse/tags/tag09.go", "parse/tags/tag18.go"]}
{"id": "C12", "title": "Text from packets cannot inject control characters", "statement": "User IDs, file names, notation texts and the other text fields are shown only if they are valid UTF-8, and then with every control character (C0, DEL, C1) replaced by a visible code-point notation and every other character unchanged; invalid text is shown as a hex dump.", "quantifier": "every byte string of any length", "why_tests_cant": "infinitely many strings", "anchors": ["parse/values/literal.go:Text.ToItem"]}
{"id": "C13", "title": "No control character reaches any name, value, note or dump", "statement": "No field of any item produced for any input contains a control character, so packet contents cannot forge output lines or drive a terminal. (False of the code: the literal-data format octet is shown raw, so octet 0x0a yields a line break and 0x1b an escape. Proved for every input in which no literal packet carries a control-character format octet.)", "quantifier": "every byte string, every context", "why_tests_cant": "infinitely many inputs", "anchors": ["parse/values/literal.go:LiteralFormat.String", "parse/tags/tag11.go"]}
{"id": "C14", "title": "Every output string is valid UTF-8", "statement": "Every name, value, note and dump in the result of every input is valid UTF-8.", "quantifier": "every byte string, every context", "why_tests_cant": "infinitely many inputs", "anchors": ["parse/values/literal.go", "parse/tags"]}
{"id": "C15", "title": "Hex dumps are lossless", "statement": "A dump is the lower-case two-digit hex of each byte separated by single blanks, and the bytes can be recovered from it; two different byte strings never have the same dump.", "quantifier": "every byte string", "why_tests_cant": "infinitely many strings", "anchors": ["parse/reader/reader.go:DumpString", "parse/values/dump.go"]}
{"id": "C16", "title": "Key IDs are shown in full", "statement": "A key ID is shown as 0x followed by exactly 16 lower-case hex digits, and is recoverable; two different key IDs never look the same.", "quantifier": "all 2^64 key IDs", "why_tests_cant": "2^64 values", "anchors": ["parse/values/keyid.go:KeyID.String"]}
{"id": "C17", "title": "Multi-precision integers are delimited exactly", "statement": "An MPI consumes its two length octets and exactly ceil(bits/8) octets, reports the bit length, and fails without being accepted when fewer octets remain; what follows is read from the next octet.", "quantifier": "every bit length 0..65535, every content, every trailing data", "why_tests_cant": "65536 lengths times all contents and suffixes", "anchors": ["parse/values/mpi.go:NewMPI"]}
{"id": "C18", "title": "Algorithm names match the OpenPGP registries and identify the octet", "statement": "For every octet, the symmetric, hash, public-key, compression, AEAD, S2K, signature-type, sub-packet and tag names shown are those of the registry table (RFC 4880 / 4880bis), private ranges are labelled as such, everything else is labelled Unknown, and the octet is recoverable from the text shown.", "quantifier": "all 256 octets for every identifier type, all pairs for recoverability", "why_tests_cant": "tests cover only some octets; recoverability is over all pairs", "anchors": ["parse/values/symid.go", "parse/values/hashid.go", "parse/values/pubid.go", "parse/values/compid.go", "parse/values/aeadid.go", "parse/values/s2kid.go", "parse/values/sigid.go", "parse/values/subpacketid.go", "parse/values/tagid.go"]}
{"id": "C19", "title": "S2K iteration counts are decoded exactly", "statement": "The shown count equals (16 + (c mod 16)) * 2^(c div 16 + 6) for each coded octet, lies in 1024..65011712, never overflows, and is strictly increasing in c.", "quantifier": "all octets and all pairs of octets", "why_tests_cant": "monotonicity and range are universally quantified", "anchors": ["parse/values/s2kid.go:Stretch.ToItem"]}
{"id": "C20", "title": "S2K specifiers consume exactly their defined length", "statement": "Simple, salted and iterated-salted specifiers consume 2, 10 and 11 octets; unknown ones consume only the type octet; the GNU extension consumes the marker, number and (for 1002) the serial number and disables the IV, and a private specifier without the GNU marker consumes only the type octet.", "quantifier": "every specifier, every following data", "why_tests_cant": "all contents and suffixes", "anchors": ["parse/s2k/s2k.go:S2K.Parse"]}
{"id": "C21", "title": "One-pass, session-key and encrypted packets show every field from its defined place", "statement": "For packets of tags 1, 3, 4, 18, 9, 19, 20 with all fields present, each field is shown with the value at its defined offset, and surplus octets appear as Unknown data with their exact count; when the fields are cut short an error is reported. (False of the code for AEAD data with OCB, whose 15-octet nonce is taken to have 16 octets, for AEAD data whose nonce is cut short, which is shown as complete (C31), and for an ECDH session key cut exactly before its last field, which is shown with that field empty; every other cut of an ECDH session key is an error. Proved for everything else, string-to-key specifiers being the RFC's for the claim on cuts: a cut GNU marker makes a private specifier, C20.)", "quantifier": "every field value, every trailing data, every truncation", "why_tests_cant": "all field values and lengths", "anchors": ["parse/tags/tag01.go", "parse/tags/tag03.go", "parse/tags/tag04.go", "parse/tags/tag20.go"]}
{"id": "C22", "title": "Signature packets show every field from its defined place", "statement": "For version 4 and 5 signature packets, type, public-key and hash algorithm, both sub-packet areas, the hash prefix and the signature MPIs are shown from their defined offsets for all area lengths; surplus octets appear as Unknown data.", "quantifier": "every field value, every pair of well-formed sub-packet areas, every MPI list", "why_tests_cant": "unbounded sub-packet areas", "anchors": ["parse/tags/tag02.go:parseV4"]}
{"id": "C23", "title": "A truncated signature is always reported", "statement": "A signature packet whose version-defined fields are cut short makes Parse return an error. (False of the code for version 3: the error is discarded and a shortened signature is shown as if complete. Proved for versions 4 and 5.)", "quantifier": "every signature body of version 3, 4 or 5 and every truncation point", "why_tests_cant": "all truncation points of all bodies", "anchors": ["parse/tags/tag02.go:Parse", "parse/tags/tag02.go:parseV3"]}
{"id": "C24", "title": "Key packets show every field from its defined place", "statement": "For version 3, 4 and 5 public keys (tags 6 and 14) of every known algorithm the creation time, algorithm and each key parameter are shown in order with the right labels, surplus octets appear as Unknown data, and a key cut short is an error. (False of the code for surplus octets inside the counted material of a version 5 key, which are not shown, and for an ECDH key of version 3 or 4 cut exactly before its KDF parameters, which is shown with empty ones; every other cut of such a key, and every cut of a version 5 key, is an error. Proved for everything else.)", "quantifier": "every algorithm, every field value and MPI, every trailing data", "why_tests_cant": "all contents", "anchors": ["parse/tags/pubkey.go", "parse/pubkey/parse_pub.go", "parse/tags/tag06.go", "parse/tags/tag14.go"]}
{"id": "C25", "title": "Secret keys show protection, IV, key material and checksum from their defined places", "statement": "For version 4 secret keys the usage octet selects the layout: plain keys list the secret parameters and the two-octet checksum; encrypted keys show cipher, S2K, IV of the cipher's block length and the byte count of the encrypted part. For version 5 the optional-field count delimits cipher, S2K and IV. A key of version 3 or 4 of any algorithm that is cut before its encrypted part is an error. (False of the code for version 5 encrypted keys: the IV is taken from behind the optional fields; for usage octets 1..252, where an extra cipher octet is read; and for usage 253 with OCB, whose nonce is taken one octet too long. Proved for version 4 with usage 0, 254, 255 and with usage 253 and EAX.)", "quantifier": "every field value", "why_tests_cant": "all contents", "anchors": ["parse/tags/seckey.go", "parse/pubkey/parse_secplain.go", "parse/pubkey/parse_secenc.go"]}
{"id": "C26", "title": "Sub-packet areas are split exactly", "statement": "A sub-packet area built from any list of sub-packets with any legal length encoding (1, 2 or 5 octets) is shown as exactly one item per sub-packet, in order; a declared length of zero or beyond the area is an error.", "quantifier": "every list of sub-packets, every legal encoding, every malformed tail", "why_tests_cant": "unbounded lists", "anchors": ["parse/tags/subParser.go", "parse/tags/subs.go:NewSubs"]}
{"id": "C27", "title": "The critical bit only changes the name", "statement": "Setting the critical bit of a sub-packet type adds ' <critical>' to the item's name and changes nothing else in the decoding.", "quantifier": "every sub-packet type and body, every context", "why_tests_cant": "all bodies", "anchors": ["parse/tags/subs.go:NewSubs", "parse/values/subpacketid.go"]}
{"id": "C28", "title": "Unknown packets and sub-packets are shown, never rejected", "statement": "A packet with an unassigned or private tag, and a sub-packet with an unassigned, reserved or private type, yields a single item naming its number and size and never an error, whatever its body.", "quantifier": "every unassigned tag/type, every body", "why_tests_cant": "all bodies", "anchors": ["parse/tags/tagUnknown.go", "parse/tags/tagPrivate.go", "parse/tags/subReserved.go"]}
{"id": "C29", "title": "Capability flags are shown completely", "statement": "For key flags, features, key-server preferences and notation flags, the set bits of every octet are determined by the items shown, and a bit that is not set shows no item. (False of the code for the numbering of key-flag octets from the third on: octet 3 is labelled flag2 like octet 2.)", "quantifier": "every flags field of every length", "why_tests_cant": "all octet strings", "anchors": ["parse/tags/sub23.go", "parse/tags/sub27.go", "parse/tags/sub30.go", "parse/tags/sub20.go", "parse/values/misc.go:Flag2Item"]}
{"id": "C30", "title": "AEAD chunk size is 2^(c+6)", "statement": "The chunk size shown for chunk octet c is 2^(c+6). (False of the code from c = 58 on: the shift count wraps in 8 bits and the 64-bit shift overflows to 0. Proved for c <= 57 and characterised for all other octets.)", "quantifier": "all 256 octets", "why_tests_cant": "the boundary octets are not in the tests; the statement covers all", "anchors": ["parse/tags/tag20.go:Parse"]}
{"id": "C31", "title": "A truncated AEAD packet is always reported", "statement": "An AEAD packet too short for its initialization vector is reported as an error. (False of the code: the error is dropped and the packet shown as complete, without the remaining octets.)", "quantifier": "every AEAD packet shorter than its IV", "why_tests_cant": "all truncation points", "anchors": ["parse/tags/tag20.go:Parse"]}
{"id": "C32", "title": "Image attribute size is the number of image bytes", "statement": "The image data size shown for an image attribute is the number of octets after the image header. (False of the code: the little-endian header length is read big-endian, so the standard 16-octet header gives a negative size.)", "quantifier": "every image attribute", "why_tests_cant": "all image sizes", "anchors": ["parse/tags/sub01.go:Parse"]}
{"id": "C33", "title": "A truncated key block is always reported", "statement": "A key-block sub-packet whose packet sequence is cut inside a packet makes parsing fail. (False of the code: when nothing of the last packet's body, or of its length field, is left, the packet is dropped silently; indeterminate-length packets are rejected or dropped.)", "quantifier": "every key block and truncation point", "why_tests_cant": "all truncation points of all key blocks", "anchors": ["parse/tags/sub38.go:parseKeyData", "parse/reader/reader.go:Read"]}
{"id": "C34", "title": "A complete key block is decoded like a top-level packet sequence", "statement": "For any sequence of definite-length packets inside a key-block sub-packet, the key data item has exactly one child per packet, in order, each equal to the item the packet gives when parsed on its own in the same state.", "quantifier": "every packet sequence, every definite-length framing", "why_tests_cant": "unbounded sequences", "anchors": ["parse/tags/sub38.go:parseKeyData"]}
{"id": "C35", "title": "Compressed packets are expanded exactly one level and bounded", "statement": "A compressed packet whose data decompresses to less than 1 GiB shows, after its own fields, one item per contained packet in order; data of 1 GiB or more is not expanded but marked; a decompression error or an error in a contained packet fails the parse; a compressed packet inside a compressed packet is shown but not expanded; an unknown compression algorithm shows no contents.", "quantifier": "every compressed body and every behaviour of the decompressor", "why_tests_cant": "all decompressor outputs", "anchors": ["parse/tags/Tag08.go", "parse/tags/packets.go:Packets.Parse"]}
{"id": "C36", "title": "Text output mirrors the tree", "statement": "ToString prints exactly one line per item (plus one per non-empty dump), in depth-first order, indented by the nesting depth, consisting of name, value and note; so with line-break-free fields the number of lines and each line's content are determined by the tree, and the indent string only changes leading indentation.", "quantifier": "every tree of items, every indent string", "why_tests_cant": "unbounded trees", "anchors": ["parse/result/result.go:toString", "parse/result/result.go:ToString"]}
{"id": "C37", "title": "JSON output is faithful", "statement": "For every result whose strings are valid UTF-8 the JSON output, compact or indented, is well-formed JSON that decodes back to the same tree (absent members standing for empty ones).", "quantifier": "every tree of items, every indent width", "why_tests_cant": "unbounded trees and strings", "anchors": ["parse/result/result.go:JSON"]}
{"id": "C38", "title": "Reading from the byte cursor is exact", "statement": "ReadBytes of n bytes either returns exactly the next n bytes and advances by n, or reports EOF/unexpected EOF and leaves the cursor where it was; along any history of reads the returned pieces concatenate to the consumed prefix of the buffer.", "quantifier": "every buffer, every history of read sizes", "why_tests_cant": "unbounded histories", "anchors": ["parse/reader/reader.go:ReadBytes", "parse/reader/reader.go:ReadByte", "parse/reader/reader.go:Read"]}
{"id": "C39", "title": "Seeking never leaves the buffer", "statement": "For every 64-bit offset and whence, Seek succeeds exactly when the mathematically exact target lies in [0, Size], then moves there; otherwise it reports an error and leaves the cursor unchanged.", "quantifier": "all 2^64 offsets, every whence, every cursor position", "why_tests_cant": "2^64 offsets including overflow", "anchors": ["parse/reader/reader.go:Seek"]}
{"id": "C40", "title": "The cursor stays within the buffer along every history", "statement": "After any sequence of reader operations 0 <= Rest() <= Size() holds. (False of the code: Read2EOF advances by the whole buffer size, so Rest() becomes negative when the cursor was not at 0. Proved for all histories without such a Read2EOF, and after one every read reports EOF.)", "quantifier": "every buffer, every finite sequence of operations and arguments", "why_tests_cant": "unbounded histories", "anchors": ["parse/reader/reader.go:Read2EOF"]}
{"id": "C41", "title": "Options behave like a set of switches", "statement": "After any sequence of Set calls an option reads the last value set for it, debug switches on cert, gdump, int, literal, marker and private but not armor or utc, unknown codes are ignored, and looking an option up by name is case-insensitive and independent of map iteration order. The text of a context says of each option whether it is on.", "quantifier": "every sequence of option settings, every name, every map iteration order", "why_tests_cant": "unbounded sequences, unspecified iteration order", "anchors": ["parse/context/context.go", "parse/context/options.go"]}
{"id": "C42", "title": "Armored text extraction", "statement": "From any text the extractor returns exactly the lines from the first line starting '-----BEGIN PGP' (other than '-----BEGIN PGP SIGNED') through the first following line starting '-----END PGP', with line ends normalised, and fails when either is missing; text before and after has no influence.", "quantifier": "every byte string with lines shorter than 64 KiB", "why_tests_cant": "infinitely many texts", "anchors": ["armtext/armtext.go:Get"]}
{"id": "C43", "title": "Binary input is parsed completely when it is not armored", "statement": "When automatic armor detection fails, the packets parsed are those of the complete input. (False of the code: a run of 64 KiB without a line feed makes the detector stop reading, so the rest of the input is lost; and a read error is discarded. Proved for inputs without such a run and without read errors.)", "quantifier": "every input byte string", "why_tests_cant": "all inputs", "anchors": ["parse/parser.go:New", "armtext/armtext.go:Get"]}
{"id": "C44", "title": "Exit status and output of the command", "statement": "The command exits with status 0 exactly when everything succeeded, prints the complete result exactly then, prints nothing to standard output otherwise, and turns panics into the abnormal exit status. (False of the code in three ways: with --debug errors are printed to standard output and the status is 0; a read error of a non-armored input is ignored; --raw prints what it got before a read error.)", "quantifier": "every option combination, every input, every environment", "why_tests_cant": "all combinations of inputs and failures", "anchors": ["facade/facade.go", "facade/debug.go"]}
{"id": "C45", "title": "Key-server queries cannot be altered by the user ID", "statement": "The query URL contains the search text percent-encoded so that decoding the query gives back exactly op=get and search=<the user ID>, for every user ID.", "quantifier": "every byte string as user ID", "why_tests_cant": "infinitely many strings", "anchors": ["hkp/hkp.go"]}
{"id": "C46", "title": "GitHub key lookup", "statement": "With a key ID, the lookup returns the raw key of the first key in page order whose ID matches case-insensitively, asks for no page beyond the first page with fewer than 100 entries, and reports no-key exactly when no fetched page has a match or the first match has no raw key. (A null entry before the match is a panic; an endless sequence of full pages is read endlessly.)", "quantifier": "every sequence of pages, every key ID of hexadecimal digits with or without 0x", "why_tests_cant": "unbounded page sequences", "anchors": ["github/github.go:GetKey"]}
{"id": "C47", "title": "Curve names identify curves", "statement": "Each known curve OID is shown with its own name, different known OIDs have different names, any other octet string is Unknown, and the result does not depend on map iteration order.", "quantifier": "every octet string, every iteration order", "why_tests_cant": "unspecified iteration order; all strings", "anchors": ["parse/values/ecc.go:OID.String"]}
{"id": "C48", "title": "Version labels", "statement": "Every version octet of every packet kind is labelled exactly one of old, current, draft or unknown according to the RFC 4880/4880bis version of that packet kind, and the number shown is the octet.", "quantifier": "all octets, every packet kind", "why_tests_cant": "all octets for all kinds", "anchors": ["parse/values/version.go"]}
{"id": "C49", "title": "Every sub-packet type shows its defined content", "statement": "A signature sub-packet of an assigned type that is long enough shows exactly the fields RFC 4880bis defines for the type, with their values; an embedded signature shows the item of the signature packet.", "quantifier": "every assigned sub-packet type, every body, every prior state", "why_tests_cant": "all bodies of all types", "anchors": ["parse/tags/subs.go", "parse/tags/sub02.go", "parse/tags/sub12.go", "parse/tags/sub20.go", "parse/tags/sub29.go", "parse/tags/sub32.go"]}
{"id": "C50", "title": "A sub-packet too short for its fields is an error", "statement": "A signature sub-packet fails exactly when it has fewer octets than the fixed and counted fields of its type need (embedded signatures and key blocks apart).", "quantifier": "every assigned sub-packet type, every body", "why_tests_cant": "all truncations of all bodies", "anchors": ["parse/tags/subParser.go:Parse", "parse/reader/reader.go:ReadBytes"]}
{"id": "C51", "title": "Literal data, marker, trust and user ID packets show their content", "statement": "A literal data packet shows its format character and meaning, its file name, its time (null when zero) and the number of its data octets, whatever the file name and data are; it fails exactly when it is cut before the data. Marker, trust and user ID packets never fail and show their octets or text.", "quantifier": "every packet body, every option set", "why_tests_cant": "all bodies", "anchors": ["parse/tags/tag10.go", "parse/tags/tag11.go", "parse/tags/tag12.go", "parse/tags/tag13.go", "parse/values/literal.go"]}
{"id": "C52", "title": "Armored data gives what the binary data gives", "statement": "A text that contains an ASCII-armored block of some octets, with any headers, line breaks up to 96 characters, text around it and a right or missing checksum, gives exactly the result of parsing these octets.", "quantifier": "every octet string, every armoring of it, every text around it, every option set, every sizes of reads", "why_tests_cant": "all data, layouts and read sizes", "anchors": ["parse/parser.go:newReaderArmor", "armtext/armtext.go:Get"]}
{"id": "C53", "title": "Damage in armored data is noticed", "statement": "When the checksum of an armored block is not that of its data, or up to three octets in a row of the data are damaged, or one data character is changed to any other octet, parsing never succeeds unless the text still stands for the same data; packets that are complete are still shown.", "quantifier": "every data, every damage of that kind, every armoring, every option set", "why_tests_cant": "all data and all damages", "anchors": ["parse/parser.go:newReaderArmor", "parse/parse.go:Parse"]}
{"id": "C54", "title": "A packet is shown the same wherever it occurs", "statement": "Octets put behind complete packets that are shown without error give the outcome and the items they give alone, but for the dates of expiration sub-packets and the kind of session key named for encrypted data; a packet that is no signature, compressed or encrypted data is shown exactly the same in every input.", "quantifier": "every sequence of packets, every octets behind them, every option set, every sizes of reads", "why_tests_cant": "all histories before a packet", "anchors": ["parse/parse.go:Parse", "parse/context/context.go", "parse/tags/tag09.go", "parse/tags/tag18.go", "parse/tags/sub03.go", "parse/tags/sub09.go"]}
{"id": "C55", "title": "The number of items shown is linear in the input", "statement": "A result has at most eight items for each octet of the input and of the contents of its compressed packets, nested items included; without compressed packets at most eight for each octet of the input.", "quantifier": "every octet string, well-formed or not, every option set, every sizes of reads", "why_tests_cant": "all inputs, at all sizes and nesting depths", "anchors": ["parse/parse.go:Parse", "parse/tags/packets.go:Parse", "parse/tags/subParser.go:Parse", "parse/tags/sub27.go", "parse/tags/sub38.go", "parse/tags/sub32.go"]}
{"id": "C56", "title": "An expiration time is shown with its number of days", "statement": "The value of an expiration time is a decimal number of days, right within a millionth of a second, followed by ' days after'; a whole number of days is shown as this number, longer times by greater numbers, different times differently.", "quantifier": "all 2^32 expiration times, with and without a creation time before them, wherever they stand in a signature", "why_tests_cant": "2^32 values, and the rounding differs at each of them", "anchors": ["parse/values/expire.go:ToItem", "parse/tags/sub03.go", "parse/tags/sub09.go"]}
{"id": "C57", "title": "Options mean the same however they are written", "statement": "A command line of options and arguments runs the command it names with exactly the options it asks for, in whatever order, by long names, letters or groups of letters, with values behind '=' or in the next argument, numbers in any base and with underscores, before or behind the command's name, the last one counting; two lines that ask for the same do the same. Options no command has, values that are none and words that are no command give status 1 and no output.", "quantifier": "every sequence of options in every way of writing them, every command and alias, every environment", "why_tests_cant": "all command lines; there are infinitely many ways to write the same options", "anchors": ["facade/facade.go:newRootCmd", "facade/hkp.go", "facade/github.go", "facade/fetch.go", "facade/version.go", "facade/completion.go", "main.go"]}
{"id": "C58", "title": "A GitHub lookup goes to GitHub and asks for this user's keys", "statement": "Whatever the user name, the key ID and the answers, every request of the github command goes over https to github.com or api.github.com, and a request for keys asks for exactly one page number and for 100 keys to a page. For a name without control characters and without / ? # % the path names exactly this user, so different names give different requests. A name of which no URL can be made gives an error and no request.", "quantifier": "every user name as an octet string, every key ID, every page number, every behaviour of the server", "why_tests_cant": "all names; which octets are escaped, decoded or cut off differs for each of them", "anchors": ["github/github.go:makeURL", "github/github.go:makeURLAPI", "github/github.go:GetKey", "facade/github.go"]}
{"id": "C59", "title": "With --debug every packet can be read back from the output", "statement": "With the debug option the output shows each packet of the input with its tag and all its octets: a simple reader of the text output (tabs or blanks), or of the JSON output, gets back exactly the sequence of packets, whatever they contain; inputs that are shown alike have the same packets. This holds for the library's result and for the command's standard output.", "quantifier": "every packet sequence in every framing, every reader, every option set with debug, every indentation, text and JSON", "why_tests_cant": "all packet sequences; contents that could break lines or imitate a packet's line are among them", "anchors": ["parse/parse.go:Parse", "parse/values/tagid.go:ToItem", "parse/result/result.go:ToString", "parse/result/result.go:JSON", "facade/facade.go"]}
{"id": "C60", "title": "Parsers do not influence each other", "statement": "What a call of Parse of a parser with its own context returns depends only on the parser's own input, on the context's options and on the earlier calls of this parser: calls for other parsers and other contexts, in whatever order they come between, change nothing. Calling Parse again after it has succeeded returns the same result. A result never loses items; when Parse fails at a packet, calling it again goes on behind this packet.", "quantifier": "every sequence of calls that create contexts and parsers, set options and parse, any number of objects, every input", "why_tests_cant": "all interleavings of calls", "anchors": ["parse/parser.go:New", "parse/parse.go:Parse", "parse/context/context.go:New", "parse/context/context.go:Set"]}
{"id": "C61", "title": "A context can be used for several inputs", "statement": "A parser that is given a context which other parsers have used returns what it returns with a new context with the same options.", "quantifier": "every sequence of calls, every number of parsers on the same context, every input", "why_tests_cant": "all histories of a context", "anchors": ["parse/context/context.go", "parse/parse.go:Parse", "parse/tags/tag09.go", "parse/tags/tag18.go"]}
{"id": "C62", "title": "The command does the same whatever was run before it in the process", "statement": "facade.Execute gives the status and standard output that the same call gives in a new process, whatever calls were made before it and however they ended.", "quantifier": "every sequence of calls with every flags, commands and environments", "why_tests_cant": "all histories of calls", "anchors": ["facade/facade.go:Execute", "facade/facade.go:parseContext", "facade/debug.go:debugPrint", "facade/completion.go"]}
{"id": "C63", "title": "Whether an input can be parsed follows from its octets alone", "statement": "A packet is shown if all octets of its fields are there, and gives an error otherwise, whose class tells the reason (octets missing, malformed, not decompressed); a secret key may crash the program in defined cases. Which of these happens is decided by the tag and the octets of the body by explicit rules for every packet, sub-packet, key and algorithm, and for a whole input by its packets one after the other, those in compressed data included. Options, earlier packets, the time zone and the pieces in which the input is delivered have no influence on it. Packets of kinds without fixed fields are accepted with any contents.", "quantifier": "every packet body and every input below 4 GiB, every option set, every earlier packets, every reader, every decompressor", "why_tests_cant": "all octet strings; every field of every packet may be cut at every place, at any depth of nesting", "anchors": ["parse/tags/tags.go", "parse/tags/subs.go", "parse/tags/pubkey.go", "parse/tags/seckey.go", "parse/tags/tag02.go", "parse/tags/tag20.go", "parse/tags/sub38.go", "parse/reader/reader.go", "parse/parse.go:Parse", "parse/values/mpi.go"]}
{"id": "C64", "title": "Results built by hand show what the calls left", "statement": "A program that makes items and infos and connects them with Add gets, from String, ToString and JSON, the text of the tree as all its calls left it: fields have the text that was assigned last, sub-items stand in the order in which they were added, an item that is used in several places looks the same in all of them and shows what was added to it later; nil arguments and receivers do nothing. Calls on other items have no influence. JSON always ends, with an error if an item is below itself.", "quantifier": "every history of New, NewItem, Add calls and assignments to fields, every shape of sharing and every cycle, every indent", "why_tests_cant": "all histories of calls; sharing and cycles of any size", "anchors": ["parse/result/result.go:Info.Add", "parse/result/result.go:Item.Add", "parse/result/result.go:NewItem", "parse/result/result.go:Item.String", "parse/result/result.go:Info.ToString", "parse/result/result.go:Info.JSON"]}
{"id": "C65", "title": "Results hold text in proportion to the input", "statement": "Without debug output, the names, values, dumps and notes of a result together hold at most 2828 octets for each octet of the input and of the contents of its compressed packets, whatever the octets say; names and values of unlimited length, lists of flags and nested packets included. The compact JSON has at most 17400 octets for each of them. The text output adds, to the text held, at most seven octets an item and the indentation of two lines; indented JSON adds at most eight lines an item.  With debug output, where every level of nesting dumps the octets inside it again, no dump is longer than three octets for each of them, and the whole result and its outputs exceed these bounds at most by a multiple of the square of the size.  The same holds of every source, armored or failing, and of what a dumping command writes to standard output, where only an error message may follow it.", "quantifier": "every octet string below 2^62 octets, every source that can be held, every option set, every run of a dumping command, every decompressor, every time zone, every reader; the bounds on the outputs for every tree of items", "why_tests_cant": "all inputs of all lengths and nesting depths; a bound on a sum over trees of any size", "anchors": ["parse/parse.go:Parse", "parse/result/result.go:Info.ToString", "parse/result/result.go:Info.JSON", "parse/tags/tags.go", "parse/tags/subs.go", "parse/values/literal.go", "parse/values/mpi.go"]}
{"id": "C66", "title": "Results have a bounded depth", "statement": "No more than 26222 items of a result are inside each other, whatever the source, the options and the octets: signatures embedded in sub-packets of signatures and key blocks in them cannot nest without end, nor do compressed packets. Short inputs give less: two levels for five octets, and six. So the text output, which is indented by the level, is in proportion to the input too.", "quantifier": "every source that can be held, armored or not, failing or not, in any pieces; every option set; every decompressor and armor decoder", "why_tests_cant": "all inputs of all lengths; recursion of any depth", "anchors": ["parse/parse.go:Parse", "parse/parser.go:New", "parse/tags/sub32.go", "parse/tags/sub38.go", "parse/tags/tag02.go", "parse/tags/subParser.go", "parse/tags/packets.go", "parse/result/result.go:Info.ToString"]}
{"id": "C67", "title": "The whole way from arguments to output", "statement": "For an input of packets as RFC 4880 and its draft successor describe them, in any framing, delivered in any pieces, as they are or armored, the command with its options written in any way they may be written ends with status 0 and writes exactly the lines that one specification of all packets and sub-packets gives: keys, signatures with their sub-packets and the signatures and keys embedded in them, session keys, literal data, user IDs and attributes, encrypted data, and the packets inside compressed data, each behind the other with what is remembered between them (session keys, creation times).  With --json the JSON text stands for the same tree.  Conversely, whatever the parser accepts (a single packet, an input below 4 GiB, the command without --debug on lines below 64 KiB) is described by that specification, also packets that end early and are accepted nevertheless: the result is the one described, and without a description there is an error or a crash.", "quantifier": "every list of packets that the specification reads, every framing of them, every armored text around them, every list of arguments that asks for the command, every source, every option set, every time zone and decompressor", "why_tests_cant": "all inputs of all lengths and nesting depths, in all combinations of packets, framings, sources and options; the end-to-end composition of all stages", "anchors": ["facade/facade.go:Execute", "facade/facade.go:newRootCmd", "parse/parser.go:New", "parse/parse.go:Parse", "parse/tags/packets.go", "parse/tags/tag02.go", "parse/tags/subParser.go", "parse/result/result.go:Info.ToString", "parse/result/result.go:Info.JSON"]}
{"id": "C68", "title": "What any input shows, damaged or not, and how it ends", "statement": "Whatever octets a source delivers, and whether it ends or fails behind them, the items returned and the way the parse ends (success, an error of the class that tells the reason, or crash) are those of one specification: the packets in front are shown as described, up to the first packet that is not accepted, the first octet that begins no packet, or a packet without its end; nothing of that packet is shown. The octets of the packets are those of the first armored block that can be opened, otherwise those of the source; text with a line of 64 KiB or more is cut there, and the failure of a plain source goes unnoticed. The command writes the text or JSON of the items and ends with status 0 if all was accepted; otherwise it writes nothing and ends with status 1, or, with --debug, writes one line with the error and ends with status 0. Every input has exactly one outcome.", "quantifier": "every octet string below 4 GiB, every source, ending or failing, in any pieces, with lines of any length, armored, damaged or not; every option set; every list of arguments that asks for a dump; every size of output that standard output takes", "why_tests_cant": "all inputs, also malformed ones, of all lengths; the way every one of them ends", "anchors": ["parse/parser.go:New", "parse/parse.go:Parse", "parse/parser.go:newReaderArmor", "armtext/armtext.go:Get", "parse/tags/packets.go", "facade/facade.go:Execute", "facade/debug.go:debugPrint"]}
{"id": "C69", "title": "The keys GitHub lists are read from the JSON document as it stands", "statement": "The answer to a request for a page of keys is taken for exactly the list of keys that its JSON document says: names of members in either case, the last of several members of a name, strings with all their escapes, null for what is missing. The raw key of the first key with the ID comes out octet for octet as the document says it. An answer that is no such document is refused with the error of an invalid request: one that breaks off inside the list, one that starts with something else than a list or null, one with a value of the wrong type anywhere in any of its keys, one with more than 10000 arrays and objects in each other. What follows the list is of no account. The github command dumps this key, or with --raw writes it; it writes nothing and fails when the answers list no such key, or one without its text.", "quantifier": "every answer, octet by octet, whole or broken off; every user name, key ID and number of pages; every verdict on what is a time", "why_tests_cant": "all JSON texts of all lengths and depths, in all spellings; all texts that are none", "anchors": ["github/github.go:getInPage", "github/github.go:GetKey", "github/structs.go:OpenPGPKey", "github/structs.go:EMailInfo"]}
{"id": "C70", "title": "What the text output shows as nested is nested", "statement": "Whatever the packets contain (names, texts and octets chosen by somebody else, line feeds included), the text output can be read back: from the indentation alone, a simple reader gets the lines of the result, each at the level it has, and so the tree of lines that the result is; no contents can make up a line, move one to another level or hide one. Results with the same text have the same tree. This holds for the library's result with tabs or any number of blanks, and for the command's standard output.", "quantifier": "every source that can be held, armored or not, ending or failing; every option set; every indentation by a tab or by one blank or more; every run of a dumping command without --json that goes well", "why_tests_cant": "all inputs of all lengths and nesting depths, also those made to mislead the reader of the output", "anchors": ["parse/result/result.go:Info.ToString", "parse/result/result.go:Item.toString", "parse/values/misc.go", "parse/values/literal.go", "parse/values/dump.go", "parse/values/tagid.go", "parse/values/subpacketid.go", "parse/tags/tags.go", "facade/facade.go:Execute"]}
{"id": "C71", "title": "Standard error tells exactly the failures", "statement": "For a dump without --debug, whatever the octets of the input: standard error stays empty if and only if the whole dump was written; otherwise it holds one line, 'Error: ' and the text of an error that tells why the input was rejected, that the output could not be written, or what input is missing; a crash begins with 'Panic: '. With --debug it stays empty but for a crash. For any arguments whatever, also refused ones, status 1 goes with such a line and status 0 with nothing, or with the two lines of the version or the help that was asked for, which leave standard output empty.", "quantifier": "every octet string below 4 GiB, every source; every list of arguments; every option set; every size of output that standard output takes; every wording of errors", "why_tests_cant": "all inputs and all ways they fail, and all command lines", "anchors": ["facade/facade.go:Execute", "facade/facade.go:newRootCmd", "facade/version.go:getVersion", "facade/debug.go:debugPrint", "facade/hkp.go", "facade/github.go", "facade/fetch.go"]}
{"id": "C72", "title": "The command reaches for nothing but what its arguments name", "statement": "Whatever the arguments, well-formed or not: one call of the command reads nothing from outside, or standard input, or the one file, the clipboard, the one URL that an argument names, or asks one key server (the default one or the one named) for one user, by https only if that was asked for, or asks GitHub for the profile or, one after the other from the first, the pages of keys of one user. Nothing is requested from the network unless the name of one of the three commands that do so is an argument; the contents of the input never lead to a request or to opening a file. version, completion, help, refused arguments, and asking for the clipboard and a file at once reach for nothing. Exit code and standard output depend on nothing outside but what was reached for.", "quantifier": "every list of arguments; every world: standard input, files, clipboard, answers of every server", "why_tests_cant": "all command lines and all contents of inputs and answers; the absence of any other effect", "anchors": ["facade/facade.go:newRootCmd", "facade/hkp.go", "facade/github.go", "facade/fetch.go", "facade/clipboard/clipboard.go:NewReader", "facade/version.go", "facade/completion.go", "hkp/hkp.go", "github/github.go:GetKey"]}
{"id": "C73", "title": "The JSON output and the text output say the same", "statement": "Take two command lines that ask for the same command with the same options on the same input, the one with --json and the other without it; --indent may differ. If the one with --json ends with success, its output is one JSON text, and the other ends with success and writes exactly the lines that this JSON text tells: each object's name, value and note on one line at the depth at which the object stands, its dump one level deeper, then its sub-items in order. The other way round the same holds, but for lines 4999 or more levels deep, for which indented JSON is refused with status 1 and no output. So whoever has the JSON output of any input knows the text output.", "quantifier": "every input, option set, command line, indentation width and environment; with --debug whenever everything goes well", "why_tests_cant": "all inputs and all trees of items, of any width and depth", "anchors": ["facade/facade.go:marshalPacketInfo", "parse/result/result.go:Info", "parse/result/result.go:Item"]}
{"id": "C74", "title": "Where the octets come from makes no difference", "statement": "Two dumping commands with the same options about the output, whose inputs have the same octets, do the same: exit code and standard output agree, whether they succeed, fail or crash, and so does standard error unless reading or writing failed or the program crashed. (With --debug, where errors are written to standard output, the exit code agrees, and the output for every accepted input.) The octets may come from standard input, a file, the clipboard, a key server, GitHub or a web server, as long as both commands take their input for armored text or neither does. So what --raw writes can be kept and dumped later: the dump is the one that the command gives without --raw on the same answers of the server.", "quantifier": "every pair of commands and command lines; every octet string; every world, with different servers, files and clipboards", "why_tests_cant": "all inputs, all commands, all ways to fail", "anchors": ["facade/facade.go:newRootCmd", "facade/hkp.go:newHkpCmd", "facade/github.go:newGitHubCmd", "facade/fetch.go:newFetchCmd", "facade/clipboard/clipboard.go:NewReader", "facade/facade.go:parseContext"]}
{"id": "C75", "title": "The dump of joined files is the joined dumps", "statement": "Join two files that are read as they are (no armored text, less than 64 KiB from one line feed to the next, also when joined), the first of which ends with a complete packet. If the command accepts both, it accepts the joined file and writes what it writes for the first followed by what it writes for the second; with --json the array of packets is that of the first followed by that of the second. Only signatures, compressed data and encrypted data in the second file may differ: in dates of expiration and in the kind of session key that is named, nowhere else. If the second file is damaged, the joined file is refused for the same reason, with the same items of the second file behind those of the first.", "quantifier": "every pair of files, every option set, every dumping command whose input is not taken for armored text", "why_tests_cant": "all pairs of inputs", "anchors": ["parse/parse.go:Parse", "parse/parser.go", "parse/context/context.go", "facade/facade.go:marshalPacketInfo"]}
{"id": "C76", "title": "What a dump can send to a terminal", "statement": "If a dumping command without --debug ends with success, its standard output is valid UTF-8, whatever the octets of the input, and the control characters in it (U+0000 to U+001F, DEL, U+0080 to U+009F) are known: in text output the line feeds at the ends of lines, the tabs of the indentation if --indent is not given, and format octets of literal data packets of the input; with --json line feeds, if --indent is given, and format octets above 0x7e. So if no literal data packet has a control character as its format octet there are line feeds and the tabs of the indentation and nothing else; and with --json no octet below 0x20 but line feeds is ever written, in particular no escape character. (In text output an escape character given as format octet reaches the terminal.)", "quantifier": "every octet string as input, every command line that dumps, every option set, indentation and environment", "why_tests_cant": "all inputs, also hostile ones: every name, user ID, notation, file name and host name in every packet at every depth", "anchors": ["parse/values/misc.go", "parse/values/literal.go", "parse/tags/tag11.go", "parse/result/result.go:Info.ToString", "parse/result/result.go:Info.JSON", "facade/facade.go:marshalPacketInfo"]}
{"id": "C77", "title": "What an option changes in the output of the command", "statement": "Take two command lines for the same command and input. (1) If the second asks for every hexadecimal dump (--cert, --debug, --int, --literal, --marker, --private) that the first asks for and --armor, --utc and --json are the same (no --json), then the second ends with success if the first does, and the first if the second does without --debug (given room for the output), and the second writes exactly the lines of the first in order, with nothing but lines of hexadecimal dump added, each directly below a line of the first and one level deeper. (2) If they differ in --utc only, they write the same number of lines at the same depths, which differ at most in how the same instant is written (time zones with whole minutes). (3) If they differ in --indent only, they write the same lines at the same depths, and with --json texts of the same document, but for documents too deep to be indented. (4) No option about the output but --json with --indent, --debug and --armor decides whether the command ends with success.", "quantifier": "every input, every pair of command lines, every dumping command, every environment", "why_tests_cant": "all inputs and all combinations of options", "anchors": ["facade/facade.go:Execute", "facade/facade.go:marshalPacketInfo", "parse/context/options.go", "parse/result/result.go:Info.ToString", "parse/values/dump.go", "parse/values/datetime.go"]}
{"id": "C78", "title": "Armored or not, the same dump", "statement": "Take any octets, and a text that contains an armored block of them as its first block, with the right checksum, any headers and any text around it, in lines shorter than 64 KiB. A dumping command that reads the text (with or without --armor, from anywhere) and one with the same options about the output that reads the octets themselves (where they are not taken for armored text) do the same: the same exit code, standard output and standard error, with --debug or without it, whether the octets are accepted, rejected or crash the parser. The parser gives exactly the same for both: the same packets and the same end, up to the kind of the error.", "quantifier": "every octet string that fits in memory, valid or damaged; every armored text of it; every pair of commands and command lines; every environment with an armor decoder as specified", "why_tests_cant": "all octets, all ways to armor them, all ways to fail", "anchors": ["parse/parser.go:New", "parse/parser.go:NewBytes", "parse/parse.go:Parse", "facade/facade.go:parseContext", "facade/facade.go:newRootCmd"]}
{"id": "C79", "title": "A file that is cut short is noticed", "statement": "Take a file of packets with definite ends that is read as it is, and cut it anywhere. If the cut is not between two packets, a dumping command without --debug ends with status 1 and writes nothing to standard output, whatever the packets hold. If it is between two packets and the command succeeds on the whole file, it succeeds on the first part and writes the beginning of what it writes for the whole; with --json its array of packets is the beginning of that of the whole, one for each packet before the cut. An armored text (lines shorter than 64 KiB, less than 4 GiB) that is cut before its end line is refused with status 1 and no output, whether --armor is given or not, unless nothing is left of it or it begins with an octet above 0x7f. (A packet of indeterminate length that is cut is shown as if complete, and an empty file is accepted.)", "quantifier": "every file of packets, every place of the cut, every option set, every dumping command", "why_tests_cant": "all files and all places where a download or a copy can break off", "anchors": ["parse/parse.go:Parse", "parse/parser.go:New", "facade/facade.go:newRootCmd"]}
{"id": "C80", "title": "Nothing but the first armored block counts", "statement": "Take two texts (lines shorter than 64 KiB) whose first armored block is the same and can be decoded. Two dumping commands with the same options about the output that read them do the same: exit code, standard output and standard error agree, with --armor or without it, with --debug or without it, whether they succeed, fail or crash. So any lines that are no begin line may be put before a text with an armored block, and any lines at all behind it, and the command does the same; and a text without carriage returns may get one before each line feed. In particular the further blocks of a text are never shown and never checked, and the status does not tell that there are any.", "quantifier": "every pair of texts, every command and command line, every decoder of armor, every environment", "why_tests_cant": "all texts around all blocks, all ways to fail", "anchors": ["armtext/armtext.go:Get", "parse/parser.go:New", "facade/facade.go:parseContext"]}
{"id": "C81", "title": "How the lengths of packets are written makes no difference", "statement": "Take two files that hold the same packets (tags and contents) in the same order, where each packet is framed in any way the format allows: old format or new, with a length of one, two, four or five octets, in parts, or, for the last one, up to the end of the file. A dumping command does the same on both: exit code, standard output and standard error agree, with any options, whether it succeeds, fails or crashes. (Files in which no armored block can be decoded and whose lines are shorter than 64 KiB, --armor not given.) Likewise within signatures (version 4 or 5, known algorithm) and user attributes: when the same sub-packets are written with lengths of one, two or five octets, the parser shows the same of them without --debug, and only the numbers of octets noted beside the packet and its areas can differ; or it fails or crashes alike.", "quantifier": "all lists of packets, all pairs of framings of them, all arguments of dumping commands, all environments", "why_tests_cant": "There are infinitely many ways to frame the same packets (each division into parts is one), and tests try the few that some program happened to write.", "anchors": ["parse/parse.go:Parser.Parse", "parse/tags/packets.go:Packets.Next", "parse/tags/tags.go:NewTag", "facade/facade.go:newRootCmd"]}
{"id": "C82", "title": "How octets are armored makes no difference", "statement": "Take two texts (lines shorter than 64 KiB) whose first armored blocks hold the same octets, each with the right checksum, and each with any type in its begin and end lines, any headers, any division into lines, and any text around it. Two dumping commands with the same options about the output that read them do the same: exit code, standard output and standard error agree, with --armor or without it, with --debug or without it, whether they succeed, fail or crash. It is enough that the blocks hold the same packets, framed in any way.", "quantifier": "every octet string that fits in memory, valid or damaged; every pair of armored texts of it; every pair of commands and command lines; every environment with an armor decoder as specified", "why_tests_cant": "all octets, all ways to armor them, all ways to frame the packets, all ways to fail", "anchors": ["armtext/armtext.go:Get", "parse/parser.go:New", "parse/parse.go:Parser.Parse", "facade/facade.go:newRootCmd"]}
