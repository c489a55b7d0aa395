# Formal model of libsml in Rocq (Coq 8.16.1)

The model lives in `rocq/theories` (logical name `Verif`).  It is a functional
transcription of the C code in `/repo`, function by function, with the C names;
every definition cites the file and lines it models and names its
simplifications.  Theorems that answer a property of `properties.jsonl` are
collected in `Props*.v` files; everything else is support.

## 1. How the code is modelled

* **Bytes and integers** are `Z`; byte ranges are a predicate (`byte_ok`), not a
  type.  `int` arithmetic that can overflow goes through helpers that wrap to
  32 bits *and* set a sticky flag `ovf` in the state ("strictly undefined
  behaviour happened, here is what every two's-complement compiler does").
* **Outcomes.**  A function run ends in `Ret v s`, in `Fault f` (out-of-bounds
  read/write, NULL dereference, wild pointer, union type confusion, cursor moved
  backwards, shift count) or in `NoFuel`.  Faults are never "fixed up" by
  totalisation: each read of `buffer[cursor]` checks the bound and faults.
* **sml_buffer** is a record: bytes, cursor, error flag, `ovf`.
* **Loops and recursion** carry explicit fuel computed from the remaining input;
  running out is the separate outcome `NoFuel`, which theorem C03 excludes.
* **Pointers to optional structures** are `option`; linked lists, sequences are
  Coq lists; `void *` / unions are sum types, and reading the wrong member is
  `Fault TypeConfusion`.
* **Numbers** are stored as the C code stores them: as the bytes of the object in
  host memory.  The host byte order is a class parameter `Host`, all theorems hold
  for both.
* **Transport**: the file descriptor is a list of events (chunk of bytes,
  interruption, error; the empty list is end of file); `read` returns any
  non-empty prefix of the next chunk limited by the requested count.
* **Heap** (`Heap*.v`): a second model in which allocation and free are explicit,
  used for C47, C51, C52 and C57.  The heap is a finite map from addresses to
  blocks (bytes, or an array of members); `malloc` picks any free address (the
  allocator is a class parameter, theorems hold for all), reading or freeing an
  address that is not mapped is a fault, so use after free and double free are
  visible.  Theorems of this model are proved with a small separation logic
  (`HeapLogic.v`) by showing that each function with pointers does what the
  function of the value level does, on exactly the memory of its arguments.

## 2. Plan per property

| id | what is modelled | how it is proved |
|----|------------------|------------------|
| C01 | all parse functions | Hoare-style predicate `good` (no fault, cursor in range, bytes unchanged) for every parser, closed under bind; minimal message size 9 gives the message-count bound |
| C02 | sml_file_parse, add_message | generic lemma "n copies of a message give n messages", specialised to 32768 |
| C03 | loops | fuel never exhausted, `progress` (each element consumes a byte) |
| C04 | get_next_type/length | induction on the TL chain against a separate TL grammar |
| C05 | get_next_length | `ovf` can only be set by a chain with value >= 2^31 |
| C06 | all parsers | part of `good` |
| C07 | sml_message_parse/sml_file_parse | invariant of the file loop, independent CRC spec |
| C08 | sml_file_parse | induction over the list of (message, corrupted?) |
| C09 | all parsers | relational predicate `stable`: success is preserved under extension of the buffer |
| C10-C13 | number/value/status | arithmetic on byte lists, both hosts |
| C14 | value_parse | direct computation for all contents |
| C15 | to_double | SpecFloat's `binary_normalize` and `SF2R`-free exactness over Z |
| C16,C17 | set_type_and_length | case analysis on the number of nibbles, symbolic length |
| C18,C19 | octet strings | from C16 |
| C20,C21 | octet cmp/hex/strhex | list inductions |
| C22,C23 | crc16 | linearity over GF(2), bit-serial specification; burst argument by running the register backwards; parity invariant |
| C24 | message_parse | explicit witness, computed |
| C25-C33 | all write/parse pairs | `writes w e` (writer emits e) and `reads p e v` (parser maps e to v) with composition lemmas; per-type well-formedness; parse establishes well-formedness |
| C34-C36 | writers | `writes` is an exact characterisation incl. the fault |
| C37-C44 | transport | invariant of the read loops; pure stream function shown equal to the event version for every schedule |
| C45-C47 | sml_list | invariant on the workaround state |
| C48-C50 | sml_server, unit.h | transcription of the receiver loop |
| C51,C52 | heap model of the parsers, free functions and writers | simulation of the value-level functions in a separation logic; the frame is everything that was in memory before |
| C53 | all write/parse pairs | converse of C25: if the parser returns what was written, the item tree was readable |
| C54 | time | from the reading lemmas of C10-C13 |
| C55 | transport_write | from the frame lemma of C43, all answers of write() |
| C56 | main loop of sml_server | composition of C43 (sender), C44 (stream of frames) and C48-C50 (receiver) |
| C57 | init and add functions, sml_file_init, sml_transport_write with pointers, and a client program that calls them | specifications of the init and add functions in the separation logic, then C43, C52 |
| C58 | crc16 | the register run on zeros from the polynomial returns to 1 only after 32766 steps (computed once); linearity; constant residue of complete codewords |
| C59 | sml_tree_parse | the recursion fuel of the model is the nesting depth: n/4 + 1 is enough (`tree_rec_deep`), more fuel changes nothing |
| C60 | everything that depends on the byte order of the host: numbers, all parsers and writers, conversion to double, the example program | simulation between the two hosts: every parser and writer commutes with reversing the memory of the numbers (`HostsSim.v`, `HostsWrite.v`) |
| C61 | sml_hexdump | induction over the rows; the stripped text is a text of digit pairs, so C21 applies |
| C62 | main and serial_port_open of the example, getopt as POSIX describes it, the flag constants of termios.h as parameters | induction over the switches; a case lemma shows that the cases are all command lines; bitwise reasoning for the port |
| C63 | heap model of the parsers and free functions; the size of a heap is the sum over its blocks, and a ghost component of the state keeps its maximum | amortised costs: every byte read pays for 96 bytes of memory, one lemma per parser, induction for loops and trees; C51 for the disjointness |
| C64 | all parsers; the grammar is a separate specification (Grammar.v) that relates contents, bytes and following bytes | for every parser: it succeeds exactly on the sentences of its production (`acc`, Accept.v); rules for the idioms of the parsers, induction on the depth for trees and on the number of elements for lists; induction over the loop for files |
| C65 | the same | the standard grammar is a part of the accepted one, production by production; unambiguity follows from C64 |
| C66 | the writers of sml_message.c and below against Grammar.v (not against the parsers) | every item the writers produce (Item.v, Enc.v) is shown to be in the production of the standard grammar for it, by structural induction (Speak.v); together with the exactness of the writers (C34) |
| C67 | the printf calls of sml_server.c:114-145 and the product of line 135 (IEEE 754, SpecFloat), as characters (Printf.v); pow is a parameter with an error bound | specification of decimal notation (Decimal.v), shown to determine text and number from each other; error analysis in fixed point integers: conversion (2^-53), pow (2^-52), product (2^-53) and the decimal rounding add up to less than half a unit below 2^50; then along C48 and C56 to the whole screen |
| C68 | sml_value_to_strhex, lines as in C67 | the first blank marks the end of the first hexadecimal byte, so the text is injective; names and numbers contain no `#` |
| C69 | malloc and realloc of the heap model ask a policy that is an argument (class `Memory`); the other heap theorems are about the policy that always grants | one relation between a program with refusals and the same program without them (`nm`, NoMemory.v): equal or crashed, equal below the limit, crashed above it; it is closed under the constructions of the model, so that every parser follows from its text; C63 for the bound |
| C70 | parser, checksums, transport, example program (nothing new) | C08 and the parity argument of C24, lifted to files; the witness is a message with a second message inside its transaction id, computed through sender, line and receiver |
| C71 | the flag `ovf` of the buffer model, set by the shift | one compositional predicate (`shifts`, Shifts.v) with a boolean computed from the item tree of the message, for every writer |
| C72 | the receiver with pointers: what it reads of the structures, its own `malloc` and `free`, `sml_file_free` (HeapServerModel.v) | separation logic (HeapServer.v): reading returns what the value level says and gives the structures back; the peak by a compositional predicate (`modest`, HeapServerCost.v); induction over the frames |
| C73 | `sml_file_print` and the loop with the options, as text (Printf.v, ServerMain.v) | a specification of the text of a frame (`screen_text`); induction over the frames; hexadecimal digits by induction; the sender's side through C41 and C43 |
| C74 | the receiver with pointers and an allocator that may refuse (HeapServerModel.v) | the relation of NoMemory.v between runs with and without refusals, extended to the receiver (NoMemoryServer.v); the bound from C72 |
| C75 | the parser of files once more, with the lines it prints (ReportModel.v) | the printing parser does what the parser does (C75_same); its lines by induction over the loop, against the language of Grammar.v with the damaged messages counted; that language is unambiguous |
| C76 | the reader once more, with the lines it prints (TransportReport.v) | the printing reader does what the reader does (C76_same); its lines as a relation between what is delivered and what is left, by induction over the three loops; the converse for each reason by computing with the loops |
| C77 | the receiver and the loop of the program once more, with the lines of the parser, of the reader and of its own (ServerReport.v), and those of freeing | the printing program does what the program does (C77_same); the lines of a frame as a relation between its content and stderr, by induction over entries, messages and frames; for sent messages the exact lines by running the printing parser on what the writer wrote |
| C78 | the parsers once more with the line about a local time (ReportModel.v), and the number of times without a value in each kind of message (ReportFacts.v) | by a weakest precondition over the printing parsers: what a parser prints about times is as long as the number of times without value in what it returns; the numbers from the grammar of C64 by running the parser on it |
| C79 | the writers once more, with the lines they print (WriteReport.v) | the printing writers do what the writers do; the lines by induction over trees and messages; for objects that were read with the lines of C78 |
| C80 | the transport layer as in C37 to C42 | the device as a list of bytes; a stream of frames as words of four bytes that, read from another offset, contain no escape sequence; the crash points by cases |
| C81 | `sml_octet_string_generate_uuid` with the descriptors of the process (Uuid.v) | induction over the messages |
| C82 | main once more, with its texts, the complaints of getopt and of serial_port_open, and all that the listener writes (MainReport.v) | the cases of C62, with C73 and C77 for the listener |
| C83 | the heap-level writer of C52 and C57 with every way malloc may answer (HeapWriteModel.v, HeapBuildModel.v) | every run equals one with a flag for each message (ShortHeap.v), which writes what the value-level writer with these flags writes (ShortWrite.v); the parser on such messages as in C32 (ShortRead.v) |
| C84 | the writers as in C34, C36 and C43, on a buffer with any content | every writer stores some bytes and ORs the others (Cells.v, EncCells.v), so the bytes afterwards are a function of the old ones and of the messages; this is carried through messages and frames (OverFrame.v), and equal outlines have the same OR-ed bytes at the same places |
| C85 | the parser once more, counting its steps (StepModel.v) | the counter changes nothing (StepFacts.v); each parser is paid for by the bytes it consumes, with separate allowances for success, for an error and for an error that was there before (StepPay.v), so that elements of lists and trees pay for themselves; messages and files by inversion (StepFile.v); at least one step for each byte (StepBusy.v) |
| C86 | the heap-level add and free functions of C51 and C57 | the separation logic for all calls that return; then the array of the file has an entry whose block is gone when its turn comes (PropsOwn.v) |
| C87 | the fuzz target on the heap model (PropsFuzz.v) | C01, C05 and the program logic of C51, with the buffer at the end of the run; witnesses for both kinds of reports |

Nothing in the list is outside what the model can express.

## 3. Trusted base

**Kernel and axioms.**  Coq 8.16.1's kernel; nothing else decides.  `vm_compute`
is used, `native_compute` is not.  Each property theorem is followed by
`Print Assumptions`, which prints *Closed under the global context* for every one
of them: no axioms at all, not even those of the standard library.  (`coqchk -o`
lists seven constants of `Coq.ssr.ssrunder`, the interface of a module of the
standard library; they are in the context because the heap files load ssreflect,
and no theorem depends on them.)  Libraries: the standard library; std++ (`gmap`
for the heap) and the Iris proof mode in the `Heap*` files.  Of Iris only the proof
mode and the generic `bi` interface are used; the logic itself is defined in
`HeapLogic.v` and its soundness (`wp_run`) is proved there.

**Specifications the theorems are stated with.**  `Spec.v` (TL fields, big-endian
values, CRC bit by bit), `Grammar.v` (which bytes are SML and what they say),
`Item.v` (the SML layout as a tree, and its bytes), `Decimal.v` (decimal notation), `Wf.v`
(well-formed objects), `Scan.v` (which parts of the input become messages), `Dzg.v`
(the workaround), `HeapRep.v` (which memory holds which object), `StepModel.v` (what is
counted as a step), and the small
definitions at the head of each `Props*.v`.

**Correspondence with the C text** is by inspection: each definition cites its
lines.  The vectors of the upstream unit tests are replayed in `Tests.v` for both
byte orders.

**Modelled**: all functions of `sml/src/*.c` and the macros of `sml_number.h`,
except those named below; `examples/unit.h`; all of
`examples/sml_server.c`; `test/src/fuzzer.c`.

**Not modelled**
* `sml_read` is modelled through the event list.
* `getopt`, `open`, `ioctl` and the termios functions are not part of the code:
  `getopt` is a definition after POSIX (`Args.v`), the others are answers given as
  arguments.  The results of `ioctl`, `tcgetattr` and `tcsetattr` are not checked by
  the code and taken to be successes.
* Diagnostics on `stderr`, except in C75 (the lines of `sml_file_parse`,
  `sml_message_parse`, `sml_message_body_parse` and `sml_message_body_free`), C76 (those of
  `sml_read` and `sml_transport_read`), C77 (those of `transport_receiver`), C78 (that
  of `sml_time_parse`), C79 (those of the writers) and C82 (those of `main`).
* `malloc`/`calloc`/`realloc` are assumed to succeed, except in C69, C74 and C83; there a failed
  `malloc` without a test for NULL is a fault at once, where the code initialises the
  block in the next statement; `malloc(0)` counts as such a call, too (it happens for
  the empty input only); blocks are disjoint; the
  sizes passed to `malloc` are not compared with what is stored (a struct is one
  block with a fixed number of members; a write outside of it is a fault).
* In C85 the work of `malloc`, `realloc` and `free`, the loops of the library's own
  `..._free` functions and `fprintf` are not counted as steps (C63 bounds the number of
  blocks, and with it the number of calls to `free`).
* `size_t` does not wrap: buffers are shorter than 2^63 bytes.  Subtractions on
  `size_t` that the code performs are modelled with wrap-around.
* `memcpy(NULL, ..., 0)` is treated as harmless.
* `printf` is not part of the code: `Printf.v` defines the conversions that are used
  after the C standard, with glibc's exact rounding of "%.*f" and without a locale.
  `pow` is an argument with a bound on its error (one unit in the last place, as
  glibc documents).  `double` is IEEE 754 binary64 without excess precision
  (`SpecFloat`).
* In the heap model: the contents of the file's buffer are kept in the state and not
  in the heap (its blocks are allocated and freed there); the function pointers in
  sequences (`elem_free`) are arguments, not memory; a ghost counter counts the
  texts lost by the DZG workaround.
* `sml_octet_string_generate_uuid`: the random bytes are an argument; the file
  descriptor which the variant without libuuid opens and never closes is part of C81
  only (there `open` fails exactly if the process has no descriptor left).
* The system calls `select`, `read` and `write`: only the events and answers above.
* The C stack has no limit in the model; C59 bounds the recursion.
