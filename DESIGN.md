# Formal model of gpgpdump in Rocq — design

Subject: `spiegel-im-spiegel/gpgpdump` (Go), source in `/repo`, read as text only.
Development: `/verif/rocq/theories` (logical name `Verif`), Coq 8.16.1, standard library only.

## Approach

* The parser is written as total computable Gallina functions, one per Go function, each with a comment
  citing file and lines. Go strings and `[]byte` are `list Byte.byte`; machine integers are `N`/`Z` with
  explicit wrap-around.
* The outcome of a Go call is `res A := ROk a | RErr e | RPanic | RFuel`. `RPanic` is a Go runtime panic
  (slice out of range); `RFuel` is "recursion budget exhausted" and is proved never to occur.
* Parsing code runs in a state monad over (byte cursor, mutable part of the context, item being filled).
  The state survives errors, because Go mutates items in place before returning an error.
* Mutual recursion of the code (signature -> sub-packets -> embedded signature / key block -> packets) is open
  recursion over a packet-body parser; the tie uses fuel = 1 + body length; a theorem shows that fuel never runs out.
* Third-party and OS behaviour enters as fields of an environment record (`env`): decompressors, the armor decoder,
  the local zone offset, slice growth of `io.ReadAll`. No assumption about
  them is made except where a theorem has it as a visible hypothesis.
* golang.org/x/crypto/openpgp/packet `OpaqueReader` / `OpaqueSubpackets` are modelled from their source
  (framing), because framing is central.

## Files

Model (one Gallina function per Go function, with file and lines in the comment):

| File | Go code |
|---|---|
| Base, Utf8 | byte strings, integer wrap-around, the fmt and strconv verbs used, unicode/utf8, strings.ToLower |
| Item | parse/result/result.go (tree, text output) |
| Result | parse/result as objects that are shared and changed; the pointers that encoding/json follows |
| Json | parse/result JSON output: encoding/json Marshal and Indent for these structs |
| Reader | parse/reader/*.go (byte cursor) |
| Context | parse/context/*.go (options, session-key mode, creation times) |
| Env | everything outside the model, as a record of functions |
| Time, Float | parse/values/datetime.go, expire.go; Go's calendar arithmetic; the text of a float64 |
| Values | parse/values/*.go (identifier tables, MPI, key IDs, literal text, versions, flags) |
| Opaque | x/crypto/openpgp/packet opaque.go, packet.go (framing, partial lengths, sub-packets) |
| Monad | the state the tag parsers run in |
| Pubkey, S2k, Subs, Tags, Parse | parse/tags/*.go, parse/parser.go, armtext/armtext.go |
| Radix64 | x/crypto/openpgp/armor Decode (lines, headers, base64, CRC24) |
| Hkp, Github, Facade | hkp/hkp.go, github/github.go, facade/*.go |
| GhJson, GhTime | github/structs.go, and encoding/json as used by github.go 78-82; time.Parse for its times |
| Url | net/url as used by github.go: Parse, String, ParseQuery, Values.Set and Encode |
| Session | parse.New, Parser.Parse, context.New and Set as calls on objects that are kept (parse/parse.go, parse/context/context.go) |
| Stderr | what facade.Execute, version.go and cobra's ExecuteC write to standard error |
| Reach | what the commands read from outside: standard input, files, the clipboard, the network |
| Process | facade.Execute called several times in one process |
| Cli | main.go, the flags and commands of facade/*.go; cobra 1.1.3 (finding the command), pflag 1.0.5 (options), strconv.ParseBool and ParseInt |
| Golden, GoldenUnit, GoldenCli | the repository's own unit-test vectors; the tests of the command, README examples and testdata files run through the whole model, from arguments to exit status and output |

Specifications (`Spec*.v`): independent readers and writers (big-endian numbers, decimal and hex readers, UTF-8, calendars,
packet and sub-packet encoders, expected trees, JSON grammar, URL and query reader, crash conditions, hidden-octet relation, redaction).

Lemmas (`*L.v`, `SubParse.v`, `Witness.v`). Property theorems (`Prop*.v`): each followed by `Print Assumptions` and by an
example that meets its hypotheses. Theorem names start with the property's ID, so `Cnn_…` proves part of property Cnn.
`…_refuted` is a counterexample: the property as stated is false of the code. `…_partial` is proved under a restriction that
its comment and the manifest name.

## Property plan

Each line: what is modelled; how it is proved.

* **C01 Packet framing is exact** — encoders for all framings (spec), OpaqueReader model; induction over packet lists and chunk lists.
* **C02 Damaged input never invents or loses earlier packets** — same; case analysis of where the cut falls; monad keeps the item list.
* **C03 Parsing always terminates within a depth set by the input** — open recursion; two callees agreeing on shorter bodies give equal results, so fuel above the length is irrelevant.
* **C04 Parsing untrusted bytes never crashes** — RPanic outcome; refutations by vm_compute witness; structural no-panic proof for all other tags.
* **C05 Dump options only add hex dumps** — relational proof through every parser: equal outcomes and trees equal up to dump fields.
* **C06 Secret and bulk data stay hidden unless asked for** — relational proof on payload replacement per parser; and a total function `redact` that
  zeroes secret and bulk octets of any body (cut ones too), with a lockstep proof that a body and its redaction are shown alike.
* **C07 The UTC option changes only how times are written** — relational proof, trees equal up to date strings.
* **C08 Timestamps are shown exactly** — calendar in model by year walk; spec = inverse day count; proof of left inverse.
* **C09 Expiration dates are creation plus lifetime** — arithmetic; refutation witness.
* **C10 Expiration dates use the creation time of the same signature or key** — state of context over sub-packet lists; refutation witness; partial theorem.
* **C11 Encrypted data names the kind of session key that precedes it** — automaton spec over tag histories; induction over packet list.
* **C12 Text from packets cannot inject control characters** — UTF-8 decoder vs. RFC 3629 encoder spec; induction.
* **C13 No control character reaches any name, value, note or dump** — predicate over trees, structural through all parsers; refutation witness.
* **C14 Every output string is valid UTF-8** — same with valid UTF-8 predicate.
* **C15 Hex dumps are lossless** — hex reader spec; induction.
* **C16 Key IDs are shown in full** — hex reader spec; arithmetic.
* **C17 Multi-precision integers are delimited exactly** — MPI encoder spec; round trip with arbitrary suffix.
* **C18 Algorithm names match the OpenPGP registries and identify the octet** — registry tables as separate spec; finite case analysis over 256 octets; suffix parsing for injectivity. `PropLengths.v`: the lengths of initialization vectors and AEAD tags that identifiers report.
* **C19 S2K iteration counts are decoded exactly** — finite case analysis over 256 octets.
* **C20 S2K specifiers consume exactly their defined length** — encoder spec; round trip with suffix.
* **C21 One-pass, session-key and encrypted packets show every field from its defined place** — wire-format encoders; expected tree spec; PropCut: the one cut of an ECDH session key that is accepted, with what is shown for it, and an error for every other.
* **C22 Signature packets show every field from its defined place** — same, with arbitrary sub-packet lists.
* **C23 A truncated signature is always reported** — length-bounded cursor argument; refutation witness for v3.
* **C24 Key packets show every field from its defined place** — wire-format encoders; expected trees; PropCut: the same for ECDH keys, and every cut of a version 5 key.
* **C25 Secret keys show protection, IV, key material and checksum from their defined places** — wire-format encoders; refutation witnesses.
* **C26 Sub-packet areas are split exactly** — sub-packet encoder spec; induction over lists.
* **C27 The critical bit only changes the name** — relational proof through sub-packet dispatch.
* **C28 Unknown packets and sub-packets are shown, never rejected** — direct for all bodies.
* **C29 Capability flags are shown completely** — bit-level spec; per-octet case analysis and induction over octets.
* **C30 AEAD chunk size is 2^(c+6)** — finite case analysis.
* **C31 A truncated AEAD packet is always reported** — refutation witness and characterisation.
* **C32 Image attribute size is the number of image bytes** — refutation witness and characterisation.
* **C33 A truncated key block is always reported** — refutation witness; which cuts are reported.
* **C34 A complete key block is decoded like a top-level packet sequence** — induction over packet lists on the reader.Reader instance of the framing code.
* **C35 Compressed packets are expanded exactly one level and bounded** — decompressor as oracle; case analysis and induction.
* **C36 Text output mirrors the tree** — line spec by depth-first walk; induction on trees.
* **C37 JSON output is faithful** — JSON reader spec; round trip by mutual induction.
* **C38 Reading from the byte cursor is exact** — cursor invariant; induction over histories.
* **C39 Seeking never leaves the buffer** — int64 wrap-around arithmetic, lia.
* **C40 The cursor stays within the buffer along every history** — operation alphabet; induction over histories; refutation witness.
* **C41 Options behave like a set of switches** — map as function; all permutations of iteration order; C41_text for Context.String.
* **C42 Armored text extraction** — line spec; induction.
* **C43 Binary input is parsed completely when it is not armored** — scanner model with 64 KiB limit; refutation by constructed witness (no large literal).
* **C44 Exit status and output of the command** — facade as function of oracle inputs to events and exit code; refutation witness.
* **C45 Key-server queries cannot be altered by the user ID** — percent-encoding; query decoder spec; round trip.
* **C46 GitHub key lookup** — paging loop with fuel over list of pages; induction.
* **C47 Curve names identify curves** — finite table; permutation argument.
* **C48 Version labels** — finite case analysis.

* **C49 Every sub-packet type shows its defined content** — expected tree per type; one lemma per sub-packet parser.
* **C50 A sub-packet too short for its type is reported** — per type: which lengths are errors; the exceptions are listed.
* **C51 Literal, marker, trust and user ID packets** — expected trees for every body.

* **C52 Armored data gives what the binary data gives** — base64 and CRC24 written from RFC 4880; the decoder inverts them for every line layout and read size.
* **C53 Damage in armored data is noticed** — the CRC register is a bijection of any three octets; a reader that ends with an error never gives success.
* **C54 A packet is shown the same wherever it occurs** — two runs of the same octets from any two histories are related by a simulation that lets only the history-dependent fields differ; packets without such fields run identically.
* **C55 The number of items shown is linear in the input** — an amortised argument: each octet that is read pays for eight items; a program logic with credits carries it through all parsers and the recursion. `C55_any_source` is for every source, binary or armored, however it ends.
* **C56 An expiration time is shown with its number of days** — the binary64 quotient and fmt's %v are defined by their specification (nearest number with 53 bits, shortest decimal read back as this number, layout of %g); bounds on both roundings, and a small inductive definition of what a decimal text means.
* **C57 Options mean the same however they are written** — `SpecCli.v` lists the options and, as inductive definitions, the ways to write them; the functions of pflag and cobra are followed over every such line, giving the command and options of `Facade`. Numbers are read in every notation that strconv.ParseInt takes with base 0 (`int_text`), and C57_number says that every other text is refused. Finding: `gpgpdump -- FILE` reads standard input without a word, `-test.x` is ignored, `-uf FILE` is refused although `-u -f FILE` is not.
* **C58 A GitHub lookup goes to GitHub and asks for this user's keys** — `Url.v` models what github.go uses of net/url: Parse, String, ParseQuery and Encode for URLs on a fixed host. The requested text is read back by the URL reader of `SpecHkp.v` and the path and parameter readers of `SpecUrl.v`. Finding: the name is put into the URL without escaping, so `alice?x` or `alice#x` asks for `/users/alice` and not for the keys, and `al%69ce` is `alice`.
* **C59 With --debug every packet can be read back from the output** — readers of items, of text and of a packet's line in `SpecDebug.v`; on top of C01 (one item per packet), C15 (dumps are lossless), C13 (the only line feed in a field is a literal packet's format octet, and what it leaves behind on the next line does not look like a packet's line), C37 (JSON is read back) and C44 (the command writes the rendering). A packet without octets has no dump line, which the reader sees from `(0 bytes)`.
* **C60 Parsers do not influence each other** — `Session.v` models contexts and parsers as objects in a heap, with the calls of the library's user: new context, set option, new parser, Parse. Parse keeps the reader, the result and the context's state for the next call. A simulation shows that only calls about the parser and its context count; a library reader that has ended or failed is shown to have nothing left, so that a further call adds nothing. Calls come one after the other; nil contexts and parsers are not modelled. The result is a pointer in Go, so one that was returned earlier grows with later calls.
* **C61 A context can be used for several inputs** — false for dates and the kind of session key; proved up to these by the relational lemmas of C54. What a second input gives is proved to be what it gives as the continuation of the first.
* **C62 The command does the same whatever was run before it in the process** — `Process.v` runs the commands of `Facade.v` with the one package variable that outlives a call, `debugFlag`. False for completion scripts and --version after --debug; a full case distinction is proved.
* **C63 Whether an input can be parsed follows from its octets alone** — `SpecAccept.v` says for all octets which verdict (accepted, rejected with the reason, crash) a packet gets, without using the model; the reason is the class of the error (octets missing, malformed, not decompressed): scans that take fields from the front, areas, key blocks (including the rule for what is left at their end), and sequences of packets with compressed data. Proved equal to the outcome of the model for every packet and every input. Bound: 4 GiB. Hypothesis: buffer sizes that the runtime chooses are below 2^62. `PropAcceptCmd.v`: the exit status of the command for a file of packets.
* **C64 Results built by hand show what the calls left** — `Result.v` has items and infos as objects with pointers; `SpecResult.v` reads fields and sub-items off the history of calls. Induction over histories; the JSON encoder's own check for cycles is modelled, and ends by a pigeonhole argument. `C64_frame` justifies that `Item.v` uses plain trees.
* **C65 Results hold text in proportion to the input** — `SpecSize.v` sums the octets of names, values, dumps and notes. Every item has an allowance of 352 octets (C55 bounds their number); what an item holds beyond it is paid for by the octets read, twelve an octet: a credit logic over the parser monad (`SizePL.v`), with the tables of names measured by computation over all octets. With debug output every level of nesting repeats the octets inside, so that the linear claim is made without it (dumps of single fields, private packets, literal data and certification digests are included). For debug output, `DumpL.v` bounds each dump by three octets per octet of its packet (a logic in which the reader stays within the packet), and C05 says that nothing else changes: a linear and a quadratic term (`PropDump.v`: `C65_dumps`, `C65_any_options`, `C65_command_any`). Outputs: induction over the tree. `C65_any_source` and `C65_command` are for every source and every run of a dumping command: text, compact JSON and indented JSON.
* **C66 Results have a bounded depth** — `DepthL.v`, `DepthGL.v`: a logic over the parser monad in which the item being filled stays within a depth, together with the octets left. An area of sub-packets has a length of two octets, and an embedded signature or a key block needs at least eight or ten octets around it, so that the recursion is bounded by a constant. `C66_bounded` is for every source, `C66_short` gives the bound in terms of the input, `C66_text_linear` completes C65 for the text output.
* **C67 The whole way from arguments to output** — `SpecShown.v` is one inductive specification of what packets, sub-packets and packets inside packets show, in octets and items only (no function of the parser occurs in it); `SpecCommand.v` says what the arguments ask for and what the input holds. `PropShown.v` proves, by mutual induction, that a packet read by the specification is parsed to that item with that state (`C67_packet`) and lifts it to inputs in any framing and any pieces (`C67_input`); `PropCommand.v` composes this with the armor decoder, the arguments and the outputs (`C67_command`, `C67_command_json`). The specification also describes what is accepted although it ends early (ECDH fields without their last part, signatures of version 3 cut anywhere, AEAD packets without a nonce, key blocks that end inside a packet) and the quirks that C21, C24, C25, C31 have theorems about. It is complete: `ShownScanL.v` inverts every scan of `SpecAccept.v` (C63) into a description, `PropShownAll.v` does so for nested packets by induction on the depth, and with C63 and the uniqueness of results this gives `C67_packet_all` and `C67_input_all` (parsed without error if and only if described, with that item) and `C67_one` (no input has two descriptions); `PropCommandAll.v` lifts this to armored or plain octets (`C67_bytes_all`) and to the command (`C67_command_all`: status 0 and these lines, if and only if described and the output takes them). Bounds: `lenN < 2^32` (C63), lines below 64 KiB (C43), buffers whose sizes are integers of the language (`int_sizes`). `ArmorSizeL.v` shows that what the modelled armor decoder gives is no longer than the text, so that no hypothesis about sizes of decoded data is needed.
* **C68 What any input shows, damaged or not, and how it ends** — `SpecOutcome.v`: an inductive relation between the octets, the items shown and the verdict (accepted, rejected with the reason, crashes), built from the framing of `SpecFrame.v`, what a packet shows (`SpecShown.v`) and how a packet that shows nothing is judged (`SpecAccept.v`); a second relation says where the octets come from (first armored block that can be opened, the source itself, its beginning up to 64 KiB of a line that is too long, or nothing). `PropOutcome.v`: `C68_outcome` (the items and the end of Parse are those of the relation, if and only if, for readers that end or fail), `C68_total` (every input has exactly one outcome), `C68_source` (the same for New and Parse on any source). `PropOutcomeCmd.v`: `C68_command`, `C68_no_input`, `C68_debug` say what is written and the status for every outcome, for text and JSON and for outputs that take only a part. Bounds: octets below `2^32` (C63), a correct armor decoder. The kind of an error is not part of the verdict.
* **C69 The keys GitHub lists are read from the JSON document as it stands** — `GhJson.v` models what github.go 78-82 does through encoding/json (syntax, unquoting, names of members, types of structs.go, repeated members). `SpecGhJson.v` is a grammar of RFC 8259 with the lenient strings, the sorts of the members and what a list says; `GhJsonL.v` proves the reader sound and complete for the grammar by induction, `GhKeyL.v` the fields. `GhTime.v`, `SpecGhTime.v` and `PropGhTime.v` do the same for the texts of times. `PropGhJson.v` joins them with the search of C46, and `PropGhCmd.v` with the command of C67 and C68: from the arguments and the answers to the lines on standard output. `GoldenGithub.v` runs the cases of github_test.go.
* **C70 What the text output shows as nested is nested** — `SpecOutline.v` has a reader of the text (`read_levels`: split into lines, join a line that is empty or starts with a blank and a parenthesis to the one before, count the indents; `nested`: the trees of lines with levels). C70_levels: for every parse the reader gets the outline of the items; C70_trees: the only trees it can build are those of the items; C70_same_text; C70_command for standard output. It rests on what `RelL.v`/`ParseL.v` prove of every name (printable, not empty, starting with neither blank nor parenthesis), of every dump, and of the one value that may hold a line feed (a literal format octet). C70_not_any shows that trees in general do not have this.
* **C71 Standard error tells exactly the failures** — `Stderr.v` models which lines reach standard error (cobra's line for a returned error, the recovery in Execute, the version); the wording is a parameter (`texts`). C71_command and C71_debug are stated with the outcome of C68, C71_no_input with the reasons of `SpecStderr.v` (C71_misses: they are reasons, and at most one applies), C71_raw for --raw, C71_status for all arguments whatever.
* **C72 The command reaches for nothing but what its arguments name** — `Reach.v` lists what the RunE functions read from outside, in order (standard input, a file, the clipboard, requested URLs); `SpecReach.v` says what arguments may lead to. C72_named holds for every list of arguments, by an induction over pflag's parse that follows every setting back to the argument it was written in; C72_offline, C72_contents, C72_nothing, C72_both, C72_bare and C72_github are the cases users ask for. C72_frame ties the list to the model of the command: two worlds that agree on what was reached for give the same exit code, output and list, so that nothing read is missing from it.
* **C73 The JSON output and the text output say the same** — `SpecSame.v` says which lines a JSON document tells, without mention of result trees; the documents of C37 tell the lines of C36 (mutual induction over the document relation, `SameL.v`), and C44 carries it over to the command.
* **C74 Where the octets come from makes no difference** — `SpecPipe.v` says when two worlds and two command lines ask for the same; the runs are compared through the step that all dumping commands share (C44's `run_dump_step`), and --raw through C44_raw.
* **C75 The dump of joined files is the joined dumps** — framing of the joined octets (C01), packets that do not look back are shown the same from every state (`HistoryL.v`), the rest through C54, and C44 and C36 for the command.
* **C76 What a dump can send to a terminal** — the strings of a result carry the format octets of the literal packets met (`StreamL.v`, as for C13); the text output is its outline (C36); the JSON output is the RFC 8259 text of a document made of these strings (C37), in which control characters below 0x20 are only white space, and the encoder is followed octet by octet for which white space (`TerminalL.v`).
* **C77 What an option changes in the output of the command** — C05 and C07 for the trees, their outlines (C36) compared line by line (`PropScreen.v`), C44 and C57 for the command, C37 for JSON.
* **C78 Armored or not, the same dump** — C52 gives the pieces that the armor decoder delivers, C43 the octets read as they are; C68 makes the outcome a function of the octets alone, however they are cut (`PropArmored.v`); C44 and C57 for the command. C78_exactly and C78_all say more than C78_parse, C78_command and C78_debug: with C01_pieces the results are equal (`PropArmoredSame.v`).
* **C79 A file that is cut short is noticed** — where a cut through packets lies, by induction on the packets, and that octets ending within a packet are no complete packets, because reading is deterministic (`PropCutFile.v`); C02 for the parser, C68 for armored text, C44 and C57 for the command; with --json the document of joined lists (`PropJoin.v`, also for C75).
* **C80 Nothing but the first armored block counts** — C42 makes the reader a function of the first block; the lines of joined texts are the joined lines (`PropBlocks.v`); a carriage return before each line feed (`SpecBlocks.v`) leaves the lines as they are (C80_line_ends); the command as for C74.
* **C81 How the lengths of packets are written makes no difference** — C01 makes the result a function of the list of packets for every framing in `SpecFrame.v`; the command as for C74 (`PropReframe.v`). For sub-packets, C22 and C26 and their failing cases, with equal lists of sub-packets (`SpecReframe.v`, `PropReframeSub.v`).
* **C82 How octets are armored makes no difference** — as C78, for two texts; with C01 for the same packets in other frames (`PropArmoredSame.v`).

Nothing in the list is inexpressible in a model.

## Trusted base

* Coq 8.16.1's kernel (and `coqchk`, which vcheck runs). `vm_compute` is used for closed examples and counterexamples.
* `Print Assumptions` under every property theorem prints "Closed under the global context": no axiom is used, neither our
  own nor the standard library's.
* The model is written by hand from the Go source. What ties it to the code: the comments (file and lines), the
  repository's own test vectors in `Golden.v`, `GoldenUnit.v`, `GoldenCli.v`, `GoldenGithub.v`, `PropJson.v` and `PropHkp.v`, and reading.
* The meaning of the Go constructs used: slices with length and capacity, integer conversion and wrap-around, nil maps, map
  iteration in any order, `defer`/`recover`, interfaces of `io`, binary64 division and the %v of a float (`Float.v`).
* `Cli.v` models cobra 1.1.3 and pflag 1.0.5 (versions from go.mod and go.sum), whose source is not in /repo, from knowledge of these
  libraries. C57 depends on it, and the theorems that start from the arguments (those of C67, C68, C69, C71 to C82 about `main`, `main_stderr` and `main_reaches`). `Url.v` models net/url of Go 1.16 in the same way, for C46 and C58,
  and `GhJson.v` and `GhTime.v` the decoder of encoding/json and time.Parse of Go 1.16, for C69.

### Outside the model, as fields of `env`, `gh_env`, `world` and `texts` (nothing is assumed about them unless a theorem says so)

* the decompressors (flate, zlib, bzip2): any function from octets to a stream that ends well or badly;
* the armor decoder `armor.Decode`: any function from text to pieces of octets, except in the theorems with the hypothesis `decodes_armor` (C52, C53, C55_any_source, C63_command_armored, C65, C67, C68, C69_shown, C71_command, C71_debug, C78, C79_armored and C82), which require it to be
  `armor_decode` of `Radix64.v` for some sizes of reads (`decodes_armor`). That is a model of x/crypto's armor package, bufio
  and encoding/base64 written from knowledge of these libraries, whose source is not in /repo;
* the local time zone, the growth of slices in `io.ReadAll`;
* HTTP, files, the clipboard, standard output's capacity, the text of errors and panics, the version, cobra's help and completion scripts;
* Unicode case tables beyond ASCII;
* which strings count as times in a GitHub answer, except in C69_times, C69_rfc3339, C69_page_times and C69_refused_times, where it is `time_ok` of `GhTime.v`.

### Not modelled

* cobra's help texts, suggestions and hidden completion command; `errs` error wrapping and the wording of errors (only the kind of error is kept);
* redirections, proxies and name lookups of the HTTP client, and files that libraries read by themselves (time zones, certificates); `Reach.v` counts an argument of fetch as requested even if it is no URL;
* stack and memory exhaustion; the wording of what is written to standard error (which lines are written, and when, is modelled: `Stderr.v`), and a standard error that takes only a part;
* concurrency: the program has none, except the signal context of the network commands, whose effect is a failing request;
* host names given to the hkp command are escaped as URL.String does, and not checked further;
* what the HTTP client does when it is called without a URL (github.go drops the error of fetch.URL): taken for an error.

### Simplifications

* A reader is a stream of octets followed by EOF or an error. For packets from armor the pieces are kept, because
  `OpaqueReader` on partial reads depends on them; for other sources one piece is used where the code reads through `bufio` or
  `bytes.Buffer`.
* Where encoding/base64 may return octets together with an error, the model delivers the octets in a read of their own and the
  error in the next one; the readers above (`bufio`, `io.ReadFull`, the line checker) keep the error for the next read as well.
* `fits`: inputs, and what the armor decoder gives for a text no longer than them, are shorter than 2^62 octets, so that Go's
  `int` additions do not wrap in the parser. For the modelled decoder the second part follows (`ArmorSizeL.v`, `decoder_fits`). The reader properties
  C38–C40 are proved without this restriction and show the wrap-around.
* Outcomes: `ROk`, `RErr`, `RPanic`, `RFuel`. `RFuel` is proved unreachable for parsing (C03); for the GitHub lookup it means
  "still asking for pages" (C46_never_ends).

## Findings

Behaviour of the code that differs from what its documentation or RFC 4880bis says; each is a theorem or visible in one.

1. **Panics** (C04). A secret key of unknown version or algorithm with one octet left, and a version 5 secret key cut before the
   count of its key material, panic: `c5 03 06 00 00` is enough. The command recovers and exits with status 1 (C44_panic).
2. **Expiration dates** (C09, C10). The sum of creation time and lifetime wraps in 32 bits. The creation time is a global state:
   an expiration sub-packet before the creation time uses the time of an earlier signature, a second one has no date.
3. **Control characters** (C13). The literal format octet is written raw, so a line feed or an escape gets into the output.
4. **OCB** (C06, C21, C25). The nonce of OCB is taken to have 16 octets instead of 15, so the first encrypted octet is shown as IV.
   With usage 253 the IV length is the cipher's block length instead of the AEAD nonce length.
5. **Checksum** (C06_checksum_refuted). The two-octet checksum of a plain secret key is dumped without any option.
6. **Version 3 signatures** (C23). Errors are discarded: a truncated signature is shown as if complete.
7. **Version 5 keys** (C24, C25). Surplus octets in the counted material are dropped; the IV of a secret key is read from behind the
   optional fields, so twelve octets of the encrypted part are shown as IV (C06_v5_refuted). For a plain key of unknown algorithm
   the last two octets of the counted secret part are left over as unknown data; in versions 3 and 4 the octets behind an unknown
   algorithm are shown as the public numbers and then read again as the secret part.
8. **Usages 1–252** (C25). An extra cipher octet is read, so one octet of the encrypted part is shown (C06_legacy_refuted).
9. **ECDH** (C21, C24). A missing last field (KDF parameters, encrypted session key) is not an error.
10. **AEAD chunk size** (C30): wrong from c = 58 on. **AEAD packets** (C31): an IV cut short is not an error.
11. **Image attributes** (C32): the little-endian header length is read big-endian, which gives negative sizes.
12. **Key flags** (C29): from the third octet on, octets are labelled with the number of the one before.
13. **Key blocks** (C33): a packet cut at a read boundary is dropped silently; indeterminate lengths are never shown.
14. **Binary input** (C43): 65536 octets without a line feed cut the input off; read errors are ignored; an armor block inside
    literal data of a binary input is parsed instead of the input.
15. **Compressed packets** (C35): one level only; 2^30 octets or more are not expanded and no error is reported; algorithm 0 is unbounded.
16. **JSON** (C37): indented output fails for trees deeper than 4999 levels, which a 27 KB input of nested embedded signatures
    reaches; compact output works.
17. **Reader** (C38, C40): `Read2EOF` advances too far, so `Rest` becomes negative; sizes near 2^63 panic; `ReadAt` moves the cursor.
18. **Options** (C05, C41): `gdump` has no effect; option names are matched with Unicode lower case.
19. **Tag 18/19 notes, tag 10 label**: the marker's data is labelled "Literal data".
20. **Command** (C44): with --debug, errors go to standard output and the status is 0; --raw writes a partial response.
21. **GitHub** (C46): a null entry panics; endless full pages are read endlessly; a matching entry without raw key is "no key";
    the user name is put into the URL unescaped.
22. **Time zones** (C08_zone_with_seconds): zone offsets with seconds lose them.
23. **Surplus octets** of fixed-size sub-packets are ignored silently (C49, C50).
24. **Armor headers** (C52): a header with an empty value makes the decoder give up the block ("Comment: ").
25. **State that is kept** (C61, C62): a context that is used for a second input shows its dates and session keys with those of the
    first; after a command with --debug in the same process, a refused completion script has status 0.
26. **Cyclic results** (C64): `Item.Add` accepts an item below itself; then String and ToString recurse until the stack is exhausted,
    while JSON reports an error.
27. **GitHub pages** (C69): one value of the wrong type in any key, subkey or address makes all keys of the page unavailable
    (C69_misfit); an answer that starts with `null`, also `nullable`, counts as a page without keys. Times with an hour of one digit and with signs in the
    zone, as in `T1:00:00+-1:00`, pass (C69_times_used).
28. **Several armored blocks** (C80): only the first block of a text is shown; the others are neither shown nor checked, and the status is 0.
29. **Cut files** (C79_not_noticed): an empty file is accepted, and so is a packet of indeterminate length wherever it is cut.

## Testing the theorems

`seeded/LOG.jsonl` has one line per wrong program tried: the model was edited in a scratch copy, every lemma that no longer
compiled was admitted, and `Print Assumptions` told which property theorems rest on an admitted lemma.
