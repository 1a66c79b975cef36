# Formal model of the dash7-rs ALP codec

The model is in `rocq/theories`, written by reading `/repo` (nothing was built or run).
Properties are listed in `properties.jsonl`, theorem names in `MANIFEST.json`.

## Files

| file | models |
|---|---|
| `Base.v` | results, bit strings, byte strings |
| `Deku.v` | assumed behaviour of the external crate deku 0.18.1 |
| `Utils.v` | `dash7/src/utils.rs` |
| `ReadArray.v` | memory effect of `utils::read_array` |
| `Types.v` | `types.rs` (VarInt), `app/operation/length.rs`, `file_offset.rs`, length prefixing |
| `Physical.v`, `Link.v`, `Network.v`, `Session.v`, `Data.v` | the modules of the same name |
| `Query.v`, `Interface.v`, `Operation.v`, `Action.v`, `Command.v` | `app/*` |
| `File.v` | `file/*` |
| `Frames.v` | `transport/mod.rs` frame, `network/network.rs`, `link/frame.rs` |
| `Display.v` | `Display` of a command |
| `Debug.v` | the text of `{:?}` and of the tool's results |
| `Cli.v` | `dash7-cli/src/parse.rs` |
| `Output.v` | everything written to standard output: the `println!` of `utils.rs:76` and those of the tool |
| `Position.v` | `from_reader` on a stream that stands somewhere, and where it leaves it: `utils.rs:47-61` and the derived one |
| `Defaults.v` | `Default` of every type that has one |
| `Construct.v` | the remaining constructors, conversions and `update`; operand headers; `NoiseFloor` |
| `DefaultCtx.v` | entry points of the types that declare `ctx_default` |
| `FileId.v` | `FileId` as a type of its own; the number in the type of an access profile file |
| `Reserve.v` | the room made for vectors while parsing |
| `Message.v` | the text of the errors of `VarInt` (`types.rs:17-42`) and of `read_string` (`utils.rs:143-154`) |
| `TestVectors.v` | the unit tests of the crate, replayed in the model as `Example`s |

Every definition of these files cites the file and lines it models. Lemma files (`L*.v`), the
independent specifications (`Spec*.v`) and the theorem files (`P*.v`) contain no model code.

## How the code is modelled

* A byte is an `N` below 256, a bit string a `list bool`, most significant bit first.
* A call returns `Ok`, `Err e`, or `Panic`. `unwrap`, slice indexing and `expect` that can fail
  give `Panic`.
* A reader is a function on the state of `deku::reader::Reader`: inner stream and position,
  leftover bits, `bits_read`.
* A writer is the bit string it appends, or an error.
* The build configuration is the class `Env`: protocol variant (spec, subiot, wizzilab), host
  byte order, and one deku behaviour we could not determine (`e_rewind`, below). Theorems are
  proved for every `Env` unless their statement restricts it.
* Integers of the Rust types are `N`/`Z`; their ranges appear as explicit well-formedness
  hypotheses (every Rust value meets them). Where the code casts (`as u8`, `as u32`) the model
  has an explicit `mod`.
* Loops over `Vec`/arrays are structural recursion. The action loop of `Command` takes fuel and
  returns the marker `EFuel` when it runs out; theorem C12 shows that never happens.

## Trusted base

1. Coq 8.16.1's kernel (and `vm_compute`).
2. `Print Assumptions` of each theorem: see the section at the end. No axiom is declared here.
3. The reading of `/repo` into the model.
4. The behaviour of deku 0.18.1, whose source is not available here, as written in `Deku.v`:
   * bits are read most significant first; `read_bits` uses leftover bits, then whole fresh
     bytes; too little input is `Incomplete`;
   * `bits_read` grows by the bits handed out; `Seek` on the reader forgets the leftover bits,
     moves the inner stream and leaves `bits_read` alone;
   * `Reader::end` may prefetch one byte into the leftover and does not count it;
   * integers with `bits = n` are written as their low `n` bits without a range check; asking for
     more bits than the type has is `InvalidParam`; multi-byte integers without `endian` use
     host order;
   * an enum id no variant matches is a `Parse` error; `id_pat` variants write no id and have no
     `deku_id`;
   * the id of an `id_pat` variant read from the stream is either put back (`e_rewind = true`) or
     handed to the first field (`false`); both are covered, and C92 shows that they differ for the
     status of an unknown interface only;
   * `cond` is evaluated when reading only; `update` attributes act only in `update()`;
     the derived `update()` sets the fields with the attribute and does not call `update()` of fields;
   * `finalize` fills the last byte with zero bits;
   * the derived `TryFrom` fails unless `bits_read / 8` is the input length; the derived
     `from_bytes` slices the input at `bits_read / 8`;
   * a `Vec` with `count = n` is made with room for `n` elements before the first one is read
     (used by `Reserve.v` and C86 only);
   * `skip_bits` skips any number of bits, also across bytes.
5. For the command line tool: `hex::decode` 0.4, `char::is_whitespace`, `String::from_utf8`. For C91, the fields of
   `FromUtf8Error` and `Utf8Error` and the values `core::str::from_utf8` gives them (`Message.v`).
6. The text `derive(Debug)` and `{:?}` of the standard library write (`Debug.v`): `Name { a: .., b: .. }`,
   `Name(.., ..)`, `Name`, `[.., ..]`, decimal integers, strings in quotes with the escapes of
   `char::escape_debug`. Which characters above U+007F are printed as they are is a parameter
   (`plain`); the theorems hold for every choice.

## Not modelled

Pretty `Debug` output (`{:#?}`), allocation other than the room made for vectors (`Reserve.v`), the `no_std`
build, the feature set `subiot_v0_0` (it does not compile:
`InterfaceStatusOperation::read` and `write` are cut out there but still referenced),
`clap` argument parsing, `dash7-cli/src/main.rs`,
the `test_tools` module, and the content of error messages other than "Too much data", those of `VarInt` and that of
`read_string` (`Message.v`).

## Plan per property

| id | model | method |
|---|---|---|
| C01 | `read_length`, `write_length` | arithmetic on `N.log2`; reader framework |
| C02 | same | explicit byte specification; minimality by case on the size bits |
| C03-C05 | `compress`, `decompress`, VarInt reader/writer | case on the exponent, division lemmas |
| C06 | all operands | a writer/reader correspondence (`RT`) composed field by field |
| C07 | all operands | equality of the writer with a byte-level specification |
| C08 | `read_action` | inversion of the dispatch |
| C09 | all readers | decoded values are well formed, then C06 |
| C10, C11 | `read_command`, `write_command` | induction on the list |
| C12 | all readers | `Safe` predicate: no panic, remaining input does not grow |
| C13 | all readers | monotonicity: success on a prefix implies the same success on the whole |
| C14, C15 | `u_try_from`, `pad_rest` | `bits_read` counts the first byte of an action twice: refuted with witness, exact characterisation proved |
| C16 | `read_command` | induction; exact description of what is returned |
| C17, C18 | accessors | induction against `find`/`filter` specifications |
| C19, C20 | `addressee` | layout specification; `update` |
| C21, C44 | queries | round trip iff lengths agree |
| C22-C25 | files | round trip; length prefix not enforced for system files: refuted; sizes |
| C26 | `file_id` | finite sweep over 256 bytes; back conversion panics: refuted |
| C27, C41 | status operations | round trip; `Other`/TxStatus refuted |
| C28 | all writers | equality under both host orders for the types without native fields; refuted for the others |
| C29 | `phy_status` | round trip iff at most 255 entries |
| C30 | bit fields | refuted with witness; exact effect (mod 2^n) proved |
| C31 | enums | finite sweep |
| C32 | `is_err` | refuted at 0x80; exact characterisation |
| C33-C35 | frames | round trip; refutations with witnesses |
| C36, C37 | `pad_rest`, offsets | exact condition for the panic; refuted with witness |
| C38 | `read_array_mem` | exact set of dropped slots, by induction |
| C39, C40 | CLI | case analysis; filter/hex lemmas |
| C42 | writers | from round trip and monotonicity |
| C43 | writers | exact failure condition |
| C45 | `Defaults.v` | computation, one value per type and build |
| C46 | LoRaWAN configs | round trip iff sizes |
| C47 | `show_command`, `show_interface_status` | against a line-by-line specification; the status against its derived text (`PDisplay.v`) |
| C48, C49 | writers | size of the encoding; the stored opcode is not used |
| C50 | all readers | a second decoder on plain bytes (`SpecDecode.v`), shown equal reader by reader (`LDecode*.v`) |
| C51 | readers of standalone types | as C50, at the level of the derived traits |
| C52 | `Env` | the builds compared: writers directly, readers through the decoder of C50 |
| C53 | all readers | readers give the same answer on longer data (`LNice*.v`) |
| C54 | `Command` | no decoder of C50 looks past its own bytes, hence neither does parsing |
| C55 | `Command`, `Action` | sizes followed through the decoders of C50 |
| C56 | `Action` | round trip of C10 for well-formed values; the other direction from what parsed values look like |
| C57 | `Command` | C56 for each action, bytes matched action by action with the decoders of C50; where unknown ids are not put back: once the output is behind the input it never catches up (`LLag.v`, a bit-level comparison of the two shifted copies, checked by computation) |
| C58, C59 | `Construct.v` | from the exact characterisation of C56 |
| C60 | readers of partial bytes | bits consumed are never a multiple of 8 |
| C61, C62 | frames | the decoder of C50 continued to frames (`SpecFrameDecode.v`), bytes taken from later bits |
| C63 | actions, commands | `Incomplete` against the existence of a continuation; the exceptions are listed in `SpecLive.v` |
| C64 | errors | error kinds against acceptance of the input, its beginnings and its continuations (`SpecErr.v`) |
| C65 | types with a default context | `DefaultCtx.v` (entry points), reference decoder `SpecDefaultCtx.v`; exact sets of values that round-trip |
| C66 | canonical input | strict decoder `SpecCanonical.v`: the reference decoder with a check at every place where two byte strings mean the same; proved equal to "parses and is written back unchanged" piece by piece (`LCanon*.v`) |
| C67 | bit offsets | `SpecBitOffset.v`: the bits at an offset as a number cut out of the big-endian value of the input; `from_bytes((d, k))` equals the reference decoder on the bytes that start there; three types re-read an unassigned id: exact outcome |
| C68 | Debug text | `Debug.v` turns every value into a tree of names, numbers and strings as the derive does; `LText.v` shows that the printed tree can be read back in front of any closing character; per type the tree determines the value (`LDebug.v`) |
| C69 | Display for Command | the shown parts are named in `SpecDebug.v` (`shown_alike`), equal text iff equal parts |
| C70 | tool output | the lines a run writes (`Output.v`) equal a list given per option (`SpecOutput.v`); from C68, C69 the text can be cut into its lines again, so equal text means equal lines; no control characters |
| C71 | library output | the parsers of `Output.v` return what those of C13-C15 return and write what `from_reader` has read |
| C72 | VarInt rounding | sent and received number related through the written byte (`SpecRounding.v`); the exponent is the least one that fits, then linear arithmetic per exponent |
| C73 | from_reader in the middle of a stream | every reader commutes with bytes put in front of the stream (`LPosition.v`); the loop without a limit stops at the end or with a byte in its hands; the frame decoder of C61 with the position added |
| C74 | foreground frames written and parsed again | everything parsed is writable (`LFrameAgain.v`); then the exact reading of C34; without what follows also where unknown ids are not put back (`LLagFrame.v`); the witness has a two-byte offset where one byte would do |
| C75 | size written against size parsed | bytes taken and bytes written piece by piece over the reference decoders of C50 (`LGrow.v`), with the sizes of C48; payloads of a known kind other than the two named take less than 64 bytes |
| C76 | frames in pieces, bytes needed | the action loop is the same on longer input unless it stopped at the end of the bytes, and then the checksum is missing (`LFrameStream.v`); that nothing behind the item matters from the reference decoders of C61 and C73 |
| C77 | frames | as C63 and C64, with the decoder of C73 followed step by step up to the action that fails (`SpecFrameLive.v`) |
| C78 | frames | as C66: a strict decoder for headers, command and checksum (`SpecFrameCanonical.v`) |
| C79 | frames | the headers are read back from either encoding (C34), the commands by C42; `refill` and `fill` in `SpecFrameUnique.v` |
| C80 | types, operations, files | strict decoders of C57 plus one for the transmission status in `SpecTypeCanonical.v`; values written as in C42 |
| C81 | frames | `command_held` of C55, `swells` of C75, `from_stream` of C73 |
| C82 | frames | `frame_understood`, `quiet`, `same_start` (SpecFrameVariants.v) |
| C83 | single types | `survivors`, `passes` (SpecSurvive.v), `transfers` and `comes_back` of C19, ranges of WellFormed.v |
| C84 | frames, single types | `settled`, `frame_bits_of` (SpecWritten.v), the lists of numbers and sizes of C43 (SpecFail.v) |
| C85 | `FileId.v` | names as runs of consecutive numbers (SpecFileId.v), finite sweep over the bytes |
| C86 | `Reserve.v` | readers that note the room they make, a relation between them and the plain readers, induction over the loop |
| C87 | `PCrc.v` | the reference decoder of C61 is local: what is decoded does not depend on the bytes behind it |
| C88 | `PBounds.v` | interval calculus over the reference decoders of C50; byte strings of symbolic length reach the bounds |
| C89 | `PRounds.v` | each round shortens the bytes or lengthens the part in front that no longer changes; a family of commands of which each round uncovers the next status |
| C90 | `PMessage.v` | cases on the two comparisons; the numbers that are accepted by `decompress_spec` |
| C91 | `PMessage.v` | the outcome for the first character, then induction on the length |
| C92 | `PPutBack.v` | the readers of the model on the two environments compared case by case; `dec_action` (C50) for the difference |
| C93 | `PWidth.v` | width of the text of each type against its size, for values that were parsed; the lines of the tool from C70 |
| C94 | `PTables.v` | a table of fields (width, value) for each type; a writer that succeeds writes the bits of the table |
| C95 | `PBuilt.v` | the tables of C94, spelled out from the arguments |
| C96 | `POrder.v` | first differing byte of the big-endian forms of C02; least exponent is monotone |
| C97 | `PFlags.v` | reference decoder of C50, opcode by opcode |
| C98 | `PGuess.v` | reference decoder of C61 with the bits counted, then case by case |
| C99 | `PTwins.v` | reference decoder of C50 on both encodings, induction on the commands, on bits where transmission statuses shift the rest |
| C100 | `PSpell.v` | reference decoder of C50 inverted for lengths, ReadFileData and WriteFileData |

## What `Print Assumptions` reports

"Closed under the global context" for every theorem of the `P*.v` files: no axiom, neither ours
nor the library's, is used.

`coqchk` and `vcheck` list seven axioms of the loaded standard library,
`Coq.ssr.ssrunder.Under_rel.*` (`Under_rel`, `Under_rel_from_rel`, `Under_relE`, `over_rel`,
`over_rel_done`, `under_rel_done` and `Over_rel`). No theorem uses them.

## Testing the theorems against wrong programs

`seeded/LOG.jsonl` has one line per edit of a model definition, tried in a scratch copy. A proof that
fails is cut out and the build goes on, so that `Print Assumptions` names what each theorem has lost.

- `failed` lists the theorems whose proofs no longer go through. It does not say that each of them is
  false for the edited model: a proof may also fail because of how it is written, or run out of time.
- A line noted as stopped early lists only theorems built before the first one of the claim was lost.
- An empty `failed` means that the edit survived. `tightened` then names the theorems added for it, and
  the edit was tried again where the line says so. Two of these edits change nothing observable, one did
  not test anything and one was of an unused definition; their notes say so.

## Findings: where the code disagrees with a property

Each has a `_refuted` theorem with a witness and a theorem with the exact behaviour.

| property | what the code does |
|---|---|
| C05 | a mantissa above 31 is reported as `ExponentTooLarge` |
| C09, C27 | a status of an unknown interface is written without its type byte and does not come back |
| C11, C41 | TxStatus has six padding bits too many: its bytes parse as a Nop |
| C12 | the derived `ForegroundFrame::from_bytes` panics: `bits_read` counts the first byte of each action twice and the slice index runs past the input |
| C14, C15 | for the same reason `Action::try_from` accepts one byte too many, and the remainder returned by `Command::from_bytes` misses one byte per action |
| C23 | a file with typed content ignores the length prefix when read |
| C25 | the constant `SIZE` of the firmware version file is 17 (the file has 15 bytes), that of the access profile file 0 (65 bytes) |
| C26 | `Into<u8>` of `FileId` panics for ids that share a variant |
| C28 | fields without `endian` follow the host: security key file, ABP address and network id, transmission time stamp, checksums |
| C29 | `PhyStatus::new` truncates the channel count to eight bits |
| C30 | values wider than their bit field lose the high bits silently |
| C31 | unassigned interface types are accepted and their code is forgotten |
| C32 | `is_err` is false for 0x80 |
| C34 | the length of a ForegroundFrame is compared with the position in the whole input; the CRC is read as actions |
| C35 | network `Control` has 9 bits (8 with wizzilab), transport `Control` 7 |
| C36 | `pad_rest` panics for bit offsets above 8 |
| C37 | at an offset inside a byte the operand is read from the next byte boundary |
| C38 | on failure `read_array` drops the slots after the failing element, not those before it |
| C39 | the command line tool never fails on valid hex; it only tries the first file ids |
| C43 | the size of a payload is taken modulo 2^32 before the range check |
| C44 | `update()` does not refresh the length of two kinds of query |
| C45 | the defaults of FileData, both LoRaWAN configurations and two frames cannot be read back |
| C52 | spec and subiot builds parse each other's DASH7 forwards as different commands (execution delay missing); a spec build drops wizzilab's group condition |
| C58 | `Action::update` does nothing, the derived `update()` does not descend: a broken part stays broken |
| C59 | `FileData::new` takes content of another file; conversions of final and transmission statuses of other interfaces panic |
| C60 | `TryFrom<&[u8]>` of types that do not fill whole bytes rejects every input |
| C62 | a frame of length 0 swallows its own checksum; only an indirect forward stops it |
| C63 | a reader that waits for more input on `Incomplete` waits for ever in three places: the status of a LoRaWAN interface, a version text that is no text already, and (wizzilab) two bits of an error code that starts no code |
| C64 | for the same reason the firmware version file and the interface status operation report `Incomplete` where no continuation exists; all other types name their errors correctly |
| C65 | the entry points with a default context do not read back what they wrote: `File` always gives the empty raw file, `Status` always an action status (a host interface status, written `00 00`, comes back as action status 0), a network frame only survives with an empty command and makes `from_bytes` panic otherwise, a transport frame is written on 8n+7 bits and its command is read one bit late ("read 8 bytes" comes back as "read 16 bytes") |
| C66 | parsing is not injective: padding bits, non-minimal lengths and VarInts, the length prefix of typed files and interface statuses (any value is accepted), bit 7 of a forward and bit 6 of a request tag are dropped, so re-serialising changes the bytes |
| C67 | at an offset that is no multiple of 8, an unassigned id of InterfaceConfiguration, IndirectInterface and InterfaceStatusOperation is read a second time from the next whole byte (if deku puts it back): the value is wrong, and for a status the place handed back too |
| C69 | the printed command does not show where an interface status stood nor any interface status after the first: `00 62 00 00`, `62 00 00 00` and `00 62 00 00 62 01 00` print the same text |
| C70, C71 | a leftover `println!` in `utils::from_bytes` writes every command, action and file that is read to standard output, with the whole input, before the call succeeds or fails; the parse tool therefore shows commands and files twice and, without a type, shows a command it then refused |
| C72 | `VarInt::compress` rounding down skips the top of a range: 125, 126 and 127 are sent as 112 although 124 fits, so a longer timeout can arrive as a shorter one |
| C73 | `ForegroundFrame::from_reader` compares the length field with the position in the stream (command.rs:46): the second frame of a stream is read with fewer actions or none, and the checksum from the wrong place |
| C73 | `Command::from_reader` takes one byte too many from the stream when bytes follow the command (`end()` at command.rs:53 comes before the test for an indirect forward) |
| C74 | a frame with a number in more bytes than needed, parsed and written again, no longer parses: `0d 01 42 10 0a 00 06 07 81 00 40 00 08 cd ab` is written one byte shorter with the same length field, which is compared with the position |
| C75 | the length in front of file data of a known kind is not checked against the data (operation/mod.rs:138, FileData): `20 20 00 00` and 65 bytes is accepted as an access profile of announced size 0 and written one byte longer |
| C77 | a frame cut after the first eight bits of its network control field is reported as `Incomplete` although the security method in it cannot become an assigned one any more (codes 8 to 15; not with wizzilab, where it has three bits); the three places of C63 show in frames too |
| C78 | with wizzilab no frame with a length field other than 0 comes back from parse and serialise unless its command consists of Nops without flags and its checksum is 0; with length field 0 the first opcode is taken from where it was written, so that `[0, 1, 66, 16, 20, 0, 12, 15, 0xE6, 0, 0, 0]` is read as an indirect forward with stored opcode 38 and written as the same bytes |
| C79 | the bytes of a foreground frame can begin with those of another one with the same headers, as the length field is not tied to the number of bytes (C34) |
| C82 | A frame of a build without wizzilab and one of a build with it that hold the same values differ by a shift of one bit from the security method on; each build may read the other's frames as something else, without an error (C82). |
| C74 | with wizzilab and length 0 a frame that is not well formed survives: an IndirectForward that carries opcode 38, the low bits of its own first byte one bit later |
| C74, C78 | where the id of an unknown interface is not put back, a frame with its status is written one byte shorter than it was read and is found again only if checksum and following bytes happen to continue the data: `0f 01 42 10 0a 00 06 07 62 05 05 05 05 05 05 05 05` with another `05` behind it |
| C84 | the power in a foreground control field, the two halves of an access class and the tag of a background frame are `u8` written in 6, 4 and 6 bits: larger values are masked without an error |
| C85 | `FileId::to_bytes` of `Rfu`, `D7AalpRfu` and `Other` succeeds and returns no bytes (C85) |
| C86 | A length field is believed before its bytes are read: 7 bytes make the parser set aside 2^30 - 1 bytes (C86) |
| C87 | crc16 is never computed or compared: every frame is accepted with every checksum (C87) |
| C89 | Parsing and writing a command is not idempotent; the number of rounds until nothing changes any more is unbounded (C89) |
| C90 | `VarIntError::into` computes the limits as `2 ^ 3` and `2 ^ 5`, which are exclusive ors in Rust: the messages give 1 as the largest exponent and 7 as the largest mantissa (types.rs:28-38, C90) |
| C94 | values whose fields contradict each other are written without complaint: a status behind a type field naming another kind, an address of another type, masks and values of any length, a file under any file id |
| C95 | a ComparisonWithValue built with a mask longer than its value announces the length of the value and writes the whole mask |
| C96 | 33 rounded up is written as the byte 41, and 34 rounded down as 40 |
| C97 | setting the first bit of an IndirectForward without operands makes it unparseable, and the two bits of a Status select its form; all other opcodes ignore them |
| C98 | `dash7 parse` shows every command of six bytes as a background frame, and rejects every foreground frame that has an action (two with wizzilab) unless stray bytes follow |
| C99 | a status of an unknown interface with one zero byte and a status of the serial interface are written as the same bytes (62 01 00), and so are an empty status of an unknown interface followed by a Nop and a status of the host interface (62 00 00) |
| C100 | a length that fits into six bits is accepted in four spellings (one to four bytes), so different inputs are parsed as the same action: 01 04 00 08 and 01 04 40 00 08 |
