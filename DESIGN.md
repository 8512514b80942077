# Formal model of buxn: design

The model is written in Rocq/Coq 8.16.1 under `rocq/theories`. /repo is read as
text; nothing is extracted from it or run.  Every definition of a model file
cites the file and lines it transcribes and says what it simplifies.

## Conventions

* All C integers are `Z`; each place where C truncates is an explicit
  `u8`/`u16`/`u32` (`mod 2^n`).  Signed `int` arithmetic that leaves
  `[-2^31, 2^31)` is a distinct outcome `Fault SignedOverflow`.
* Arrays (VM memory, stacks, device page, framebuffers) are total functions
  `Z -> Z` together with a size.  Each access the C code performs is
  bounds-checked by the model and yields `Fault (OobRead i)`/`Fault (OobWrite i)`
  when C would leave the object.  Totality of the function therefore never
  hides an out-of-bounds access.
* Results are `Ok a | Fault f`; unbounded loops take fuel and return a distinct
  `OutOfFuel`.
* Host callbacks (device handlers, file system, wire transport, audio sink) are
  Section variables, so that theorems hold for all of them, or explicit finite
  oracles; they never become axioms.
* Layout: `XModel.v` (transcription), `XSpec.v` (independent specification),
  `XProofs.v` (lemmas), `Props_X.v` (the property theorems, each closed by one
  lemma, followed by `Print Assumptions` and a non-trivial example).
* Properties which the code violates are stated twice: an exact positive
  statement that carries the condition, and a `_refuted` theorem with a witness.

## Plan per property

| id | modelled code | how it is stated and proved |
|----|---------------|------------------------------|
| C01 | vm/exec.h, vm/opcodes.h | `VmModel` transcribes the macros as micro-operations; `VmSpec` is a separate stack-effect table (operand widths, results as numbers); refinement for all 256 bytes by case split on the opcode with symbolic state |
| C02 | same | relational theorem between opcode `b` and `b|0x80` |
| C03 | same | commutation with stack swap |
| C04 | same | bounds-checked accesses never fault; frame theorem above 0x10000; lifted to runs by induction on fuel |
| C05 | same | explicit theorems for LDZ2/STZ2/LDA2/STA2/LDR2/STR2 and jump targets |
| C06 | vm.c execute, exec.h hook expansion | two loops, simulation by induction on fuel |
| C07 | vm.c execute | induction on fuel against an inductive reachability relation |
| C08 | vm.c reset | pointwise |
| C09 | exec.h | model returns SignedOverflow exactly for MUL2 with product >= 2^31; witness |
| C10 | exec.h DEI/DEO | for all callbacks; call trace |
| C11-C15 | devices/system.c | pointwise memory specs, loop invariants |
| C16, C17 | devices/console.c, controller.h, mouse.h | event list specification, induction on histories |
| C18 | metadata.c | bounds-checked model, exact characterisation plus witness for the exception |
| C19-C24 | devices/file.c | host as an oracle with a recorded call trace; invariants by induction over port-write histories; C24 refuted by a history |
| C25, C26 | devices/audio.c | integer part only; the conversion to float is not modelled |
| C27 | gui.c audio hand-over | two-thread transition system, all interleavings; sequentially consistent atomics plus a separate happens-before account of the C11 orderings |
| C28-C30 | devices/screen.c | bounds-checked layer writes; dirty-rectangle invariant over histories |
| C31-C35 | dbg/core.c | hook as a function over a command oracle; composition with the VM model |
| C36 | dbg/protocol.c, dbg/wire.c | bserial is external: messages become token streams (ints, blobs, records); read and write modes of the same function are modelled separately and proved inverse |
| C37 | dbg/symtab.c | token streams as above; hash table of names with arbitrary hash |
| C38 | asm/hamt.h | trie as inductive tree, arbitrary hash |
| C39-C46 | asm/asm.c | tokenizer and one-pass assembler as functions on character lists; label resolution proved against a two-pass specification |
| C47 | asm/annotation.c | state machine |
| C48-C50 | bembd.h, cli.c, asm.c front end | lists of bytes |
| C51, C52 | asm/chess.c | abstract stacks; relation with the VM model |
| C53, C54 | gui.c audio callback, devices/audio.c | exact effect of one callback; the expected claims are refuted |
| C55, C56 | dbg/wire.c composed with dbg/core.c | messages on the stream against the log of the core; failure at any point |
| C57 | asm/asm.c | `AsmText`/`AsmAccept`: an independent two-pass description of the flat language; acceptance and bytes agree for every text without macros and includes |
| C58 | src/asm.c | reading the .sym file back |
| C59-C61 | asm/chess.c with the VM | refuted by programs; the runs of the VM hold for every host |
| C62, C63 | asm/chess.c | invariant over all states of the analysis |
| C64-C66 | dbg/transports, dbg-wrapper.c | strings; system calls with arbitrary results |
| C67, C68 | romviz.c | one frame, one key |
| C69-C71 | asm/asm.c with asm.c and romviz.c | `AsmCover`: invariant over all states of the assembler |
| C72-C75 | cli.c with all its devices, datetime.c; dispatch of gui.c and repl.c | `CliProofs`: a session is a sequence of console events; invariants and relations over sessions |
| C76-C78 | positions and names of the assembler's symbols, ctags.c | `AsmPlace`, `AsmNames`: invariants over the whole run of the assembler |
| C79-C80 | bindgen.c, comments of the assembler | `Props_Bindgen`, `AsmComments`: the symbols as items, one pass over all functions of the assembler |
| C81-C83 | gui.c: ports, console, events | `Props_Ports`, `Props_Gui`: table of documented values; `execute_keeps` carries invariants through vector runs |
| C84-C86 | gui.c: picture, start, console input | `Props_GuiScreen`: invariant of C24 through runs and frames; `Props_Start`: reads, metadata, events |
| C87, C88 | asm/chess.c with the VM: constants, reported writes | `ValueSpec` (when the checker is right about a machine), lockstep of `poly`/`poly_op` per opcode (`ChessSim`, `ChessStep`, `ChessCast`), node pool (`ChessPool`); `Props_ChessValue` |
| C89, C90 | asm/chess.c: signatures and casts in comments | `SigSpec` (grammar of the comments, meaning of a name), word parser equivalent to the grammar, link with the two stages of the reader (`ChessRead`); `Props_ChessRead` |
| C91 | asm/chess.c with the VM: the verdict is right about vectors | `SoundSpec` (runs of the machine, states of the analysis), lockstep of sizes and jumps (`ChessClean`, `ChessGo`), the run stays on a path of the analysis (`ChessRun`); `Props_ChessSound` |
| C92, C93 | asm/chess.c: values at calls and returns | `TypeSpec` (which reports there are about a value, about a stack and about both), steps of `check_stack`, `push_all` and `check_return` (`ChessTypes`); `Props_ChessTypes` |
| C94 | bindgen.c: the text of the header | `HeaderSpec` (tokens, declarations and functions of a part of C11), `HeaderProofs` (the printed text as tokens and declarations); `Props_Header` |
| C95-C97 | repl.c: the table, the signature, the loop | `ReplSpec` (fields and rows of the table, words of the signature); `Props_Repl` |
| C98 | what DEI reads from each device, the vector of each event | `reads`, `reads2`, `vector_of`, `calls`; `Props_Reads` |
| C99 | physfs.c under the file device: contents, listings, the table of directories | `PhysfsSpec` (what PhysFS promises, `happened`: the log is what was done, `readable`, `writable`, `status`); `Props_Physfs` |
| C100 | names of labels and macros; names of anonymous labels | `AsmSpec.valid_name`, `anonymous`; `Props_Names` |
| C101 | what attaching a debugger does to a program | `marked`, `looks`, `wanted`; `Props_Integ` |
| C102 | the command line of the graphical emulator | `is_option`, `words`, `level_of`, `boots`; `Props_Platform` |
| C103 | strings of a symbol file stay inside their buffer | `places`, `space`, `string_at`; `Props_Buf` |
| C104 | the hash function and interned strings in memory | `hash_of`, `pool`; `Props_Hash` |
| C105 | warnings about unused labels and macros | `defines`, `refers_to`, `full_name` (UnusedSpec); `AsmUnused`, `Props_Unused` |
| C106 | src/asm.c: the excerpt under a report | `underlined`, `is_char`, `knows_ascii` (ExcerptSpec), places of C76; `Props_Excerpt` |
| C107 | src/asm.c: main, files that fail | `after`, `orderly` (MainSpec), `image` of C50; `Props_Main` |
| C108 | src/rom2exe.c: main, find_relative_path | `chosen`, `runner_option`, `slash` (Props_Exe), C48; `Props_Exe`, `Props_Made` |
| C109 | src/asm/sym-view.c | `line`, `entry`, `complete` (Props_SymView), `labels_of` of C58; `Props_SymView` |
| C110 | src/repl.c: the files of the interactive assembler | `wants`, `asks`, `typed`, `byte_of` (Props_Vfs); `Props_Vfs` |
| C111 | src/repl.c: the log of a line | `shows`, `hears`, `unfinished` (Props_ReplLog); `Props_ReplLog` |
| C112 | src/gui.c: geometry of the window | `fits`, `under` (Props_Window); `Props_Window` |
| C113 | src/gui.c: when updates are due, standard input | `total`, `sends` (Props_Pace); `Props_Pace` |

## What is modelled

| files of the repository | model | not in the model |
|---|---|---|
| src/vm/exec.h, src/vm/vm.c, include/buxn/vm/*.h | VmModel | `restrict`, the config pointer |
| src/devices/system.c | SystemModel | host functions are arguments |
| src/devices/console.c, controller.c, mouse.c and their headers | InputModel | |
| src/metadata.c | MetaModel | |
| src/devices/file.c | FileModel (FileDevice for both devices in a VM) | the host's file system is arbitrary within the contract of file.h |
| src/devices/audio.c | AudioModel | conversion to float |
| src/devices/screen.c | ScreenModel | theorems for sizes up to 32752; wider screens overflow an int (C28_wide_screen_refuted) |
| src/gui.c:437-491, 600-640 (notes, audio callback) | HandoverModel, AudioModel | the rest of the GUI |
| src/dbg/core.c | DbgModel | |
| src/dbg/protocol.c, wire.c | ProtoModel | bserial: a stream of integers, blobs and records |
| src/dbg/symtab.c | SymtabModel | bserial, as above with arrays and tables |
| src/asm/hamt.h, asm.c:704-845 | HamtModel | |
| src/asm/asm.c | AsmModel | texts of reports; positions are unbounded; allocation succeeds |
| src/asm/annotation.c | AnnoModel | |
| src/asm/chess.c | ChessModel | names and regions of values, texts of messages |
| src/asm.c (callbacks, ROM, .sym and debug symbols) | FrontModel | options; printing (see ExcerptModel) and failing files (see MainModel) |
| src/bflag.h, src/dbg/transports/from_str.c, stream.c, src/dbg-wrapper.c | TransportModel | getaddrinfo, Windows |
| src/romviz.c | RomvizModel | the terminal library, the text of the status line |
| src/ctags.c | CtagsModel | errors while writing, the log |
| src/bindgen.c | BindgenModel | the command line (barg), the C compiler: the generated functions are read by the part of C in HeaderSpec (C94); in C79 they are `struct_read` and `struct_write` |
| src/gui.c:565-566, 596-632, src/linux/platform.c:258-277 (pace of updates, standard input) | `PaceModel` | doubles are exact rational numbers; sokol_time |
| src/gui.c:304-326, 528-532, 706-755, 816-828, src/linux/platform.c:231-241 (geometry of the window) | `WindowModel` | floats are exact rational numbers |
| src/repl.c:476-510, 612-681 (what is shown about a line) | `ReplLogModel` | texts and colours of the log, tokens, related places, warnings about annotations |
| src/repl.c:36-70, 313-449 (files in memory, typed lines, files of the file system) | `VfsModel` | bestline (a parameter), closing and allocation |
| src/asm/sym-view.c | `SymViewModel` | a missing argument |
| src/rom2exe.c:19-129 (command line, path of the runner, free) | `ExeModel` | Windows names, output equal to input or runner, allocation failure, fchmod |
| src/asm.c:483-734 (main, with failing files) | `MainModel` | the command line (barg), the texts of messages, allocation |
| src/asm.c:175-256 (excerpts under reports) | `ExcerptModel` | utf8proc (a parameter), the fixed prefix of the lines, the log line above them |
| src/asm/chibihash64.h, src/asm/asm.c:720-760 with the characters in memory | `HashModel` | the fields of the nodes are not in the memory; sizes of 64-bit machines |
| src/dbg/btmp_buf.h, src/dbg/symtab.c:205-213 with addresses | `BufModel` | intptr_t and size_t have 64 bits |
| src/linux/platform.c, src/win32/platform.c (command line and boot ROM) | `PlatformModel` | strtod, the icon, the window and the log are left out |
| src/dbg.c, src/dbg/transports/fd.c (update), the calls in src/gui.c | `IntegModel` | the answers of poll are booleans; what happens between two vectors is any function |
| src/physfs.c | PhysfsModel | the library PhysFS (a parameter), log messages |
| src/repl.c, src/repl.tal | ReplModel | reading of a line (see VfsModel), logs (see ReplLogModel), setup of the file system, utf8proc (the columns of a text are a parameter); the names that the type checker gives to values (a parameter); whether a name is in an arena that was reset is tracked by counting the resets |
| src/gui.c | GuiModel | drawing by the GPU, window size and scale (pointer positions come scaled; see WindowModel), the audio thread (see AudioModel, HandoverModel), the debugger, allocation failure |
| src/cli.c, src/devices/datetime.c | CliModel | the debugger file descriptor, flushing, PhysFS set-up |
| dispatch of src/gui.c and src/repl.c | CliModel | |
| src/bembd.h, src/rom2exe.c, loading in src/cli.c and src/gui.c | BootModel | buffering of stdio |

bserial is not in the repository.  What is assumed of it is written at
`rw_int`, `rw_blob`, `rw_record` and `item` in ProtoModel.v and at the head of
SymtabModel.v: reading finds the values that were written, an integer outside
the range of the variable is malformed, a record delivers its fields in the
order of the stream and skips unknown ones.

## Not modelled

Platform and presentation code (sokol, sixel, the library PhysFS, libuv transports, logging),
the serialisation library bserial, the C library, the C preprocessor and
compiler, memory allocation failure, floating point conversion in audio
rendering, timing.  `restrict` qualifiers in exec.h are ignored (device callbacks
that modify VM memory while the interpreter holds restrict pointers are
formally undefined in C; the model reloads memory).

## Findings

Claims that the code violates, each a `_refuted` theorem with a witness:

* C09: MUL2 of 0xffff by itself overflows an int.
* C11, C13: an expansion fill outside memory is no no-op; the fill value is read outside memory.
* C18: metadata of a ROM file is read past its end.
* C20: a file transfer at address 0 moves nothing (the clamped length wraps to 0).
* C24: the first read of a newly named directory can return the end of the old listing.
* C27: the exchange of note buffers only releases, so the two threads race by the C11 rules.
* C28: fills from outside the screen write outside the layer, sprites are read past the end of memory, wide screens overflow an int.
* C29: wrapping sprites and fills past the right margin are not redrawn.
* C32: a two-byte load that wraps is not seen by a breakpoint on its second byte.
* C33: a breakpoint that does not pause hides a pausing one with a higher number.
* C36: a memory write of 256 bytes arrives with size 0; a memory read without a size key takes its size from uninitialised memory.
* C37: symbol files with missing keys are accepted and leave symbols with uninitialised names.
* C39: a lone CR at the end of an included file drops the rest of the including file without an error.
* C43: `+` and `++` are accepted as 0.
* C46: in the body of a macro a comment can be cut by `}`.
* C47: repeated prefix annotations, their order, and postfix annotations of nothing.
* C48: rom2exe reads a null pointer if the ROM file does not exist.
* C49: the CLI writes up to 256 bytes behind its memory (embedded ROMs: without limit); the GUI refuses a ROM that fits exactly.
* C52: the size counters of the type checker wrap at 256, so overflows pass, and then it reads `content[-1]`.
* C53, C54: of the finished voices only voice 0 evaluates its own vector (the others use addresses 1 apart instead of 16); the sound of a voice overwrites that of the others.
* C59: three unsound rules of the type checker (a jump is followed once whatever the stacks; INC2 keeps the return flag; byte arithmetic is not reduced).
* C60: the type checker does not return on a program whose routine returns to a constant address.
* C61: it reads the ROM at a negative index, and MUL2 on constants overflows an int.
* C62: `ctx.success` is never set, so every routine is traced as failed.
* C64: `fifo:` is documented but refused; the service of `tcp-connect:` is copied without its terminator (followed by uninitialised stack, read past the array from 22 characters on); the port of `tcp-listen:` is byte-swapped on little-endian machines.
* C67: romviz looks symbols up as if they were sorted; a terminal narrower than 12 columns divides by zero.
* C68: romviz drops the last character of a source file.
* C70: a forward reference that is completed late writes over code that was put over it.
* C71: debug entries of the same source position are merged although their addresses are not adjacent or their ids differ (macro arguments).
* C72: only a non-zero exit code ends the session before the arguments, so a program that asks for exit code zero is still run for each argument; and while the arguments are delivered no exit is noticed.
* C75: every byte read asks for the time again, so DEI2 of the year or the day of the year can mix two times (0 or 511 at the change from day 255 to 256).
* asm.c (C76): in a file with CR LF line ends the byte offset of a position does not count the line feed after a carriage return.
* ctags.c (C78): a macro argument that is a long string makes a label with blanks and newlines in its name; in the tags file its line is broken in two.
* transport.c (C64): a negative port number is accepted and taken modulo 65536.
* bindgen.c (C79): a macro between two members of a command has a symbol at address 0, so the byte before it becomes a uint16_t that overlaps the next member; `&len 0102` has two symbols and becomes a uint8_t; the last member is lost if no symbol follows.
* asm.c (C80): the id of a comment word is its depth in 16 bits, so within 65536 parentheses a word looks like the start of a comment.
* audio.c (C81): the position read by DEI2 is consistent only if the high byte is fetched first.
* gui.c (C82): a zero byte cuts the logged line; 255 characters and a newline log an extra empty line; text without a newline at the end is never logged.
* gui.c (C83): left and right control (alt, shift) share a bit; the pointer can be at x = width or y = height.
* system.c/gui.c (C84): writing only the high byte of a colour word does not redraw, so the screen mixes old and new colours.
* gui.c (C85): a ROM of exactly memory size minus 256 bytes is refused as too large; exit code 0 (System/state 0x80) does not close the window, unlike the command-line emulator.
* chess.c (C87): byte constants are not reduced to a byte, so `#ff INC #02 DIV #18 DEO` is reported as a write of 0x80 where the machine writes 0.
* chess.c (C87): the halves of a short on a path that was put aside point to a record that is released, and used again, when the path that cut the short ends; they can join to another short. `#1234 SWP #00 ?{ #abcd POP POP SWP #10 DEO2 BRK } POP2 BRK` is reported to write 0xabcd where the machine writes 0x1234.
* chess.c (C93): the error about a vector that returns to its caller cannot occur, because the mark of the caller is only put on the stack for a subroutine; such a vector is reported for taking from an empty stack.
* bindgen.c (C94): labels that differ only in case, or in `-` and `_`, become the same constant; a member named like a keyword of C and a section without members give a header that does not compile; a last member of size 0 is added to the struct of the next command block, whose functions then use a constant that does not exist.
* repl.c (C97): the names of the values on the stacks are in the arena of the line that noted them, and the arena is reset two lines later; after an empty line, or one that does not assemble, the next line reads freed names for its signature.
* repl.c (C97): a line that is rejected still notes the stacks of the ways through it that are right; `#00 ?{ POP } #02` on an empty stack is rejected, and the next line is checked as if a byte was there.
* repl.c (C96): with nine values on a stack the signature of the next line is `( a b c d e f g h ... . -> )`, which is no signature; the line is checked with empty stacks, so `POP` is rejected and what is noted differs from the machine from then on. The text of a stack is cut to its length modulo 256.
* repl.c (C95): names are padded by bytes and numbers by columns, so short names with accents do not line up.
* physfs.c (C99): readdir asks for the status of the bare name, so in any directory but the root of the mount the listing shows `!!!!` or the size of another file.
* physfs.c (C99): the result of PHYSFS_enumerateFiles is not checked; when it is NULL (the directory was removed after the stat, or no memory), the handle is used and readdir reads through NULL.
* asm.c (C100): the name of an @@ label is made from its label id and that of a lambda from its lambda number, so in `|0100 @@ { BRK } @x` two labels at 0100 and 0104 are both called `@01` in the symbol file.
* dbg.c, gui.c (C101): every update runs the mouse vector while any breakpoint is set, in every frame and for every event, although the mouse did nothing. When the client hangs up, poll reports POLLHUP from then on and every update runs the mouse vector for the rest of the program.
* win32/platform.c (C102): there is no -scale= option, so `buxn-gui -scale=2 a.rom` tries to boot a ROM called `-scale=2`.
* linux/platform.c, win32/platform.c (C102): with argc = 0, argv0 stays NULL and is passed to fopen.
* linux/platform.c: an unknown option such as `-scal=2` is not refused but taken for the name of the ROM (C102_plain).
* btmp_buf.h, symtab.c (C103): a string length of 2^63 - 1 or more in a symbol file passes the check of the buffer (`len + 1` wraps to 0 or becomes negative), a zero is stored at str[len] and the blob is read over the heap; smaller lengths near 2^63 overflow intptr_t.
* C106: if the first line of a file is empty, a report about the second line shows an empty line; a report about bytes that are not UTF-8 at the start of a line reads before the line buffer.
* C107: a failed assembly overwrites the .sym file of the ROM that stays; exit code 0 although the .sym and debug files could not be made; fclose of a null pointer if a source cannot be opened again for an excerpt.
* C108: buxn-rom2exe called through PATH (no slash in argv[0]) looks for the runner in the current directory and frees a string literal at the end; an executable made by it and started through PATH does not find its own ROM.
* C109: sym-view prints for ever on a .sym file that is cut off inside an entry, and reads a missing file through a null pointer.
* C110: where char is signed the interactive assembler takes a byte 0xff for the end of a file and 0xfe for an error.
* C111: the interactive assembler drops every error in its prelude, so a line that makes the prelude fail (`|0000`, `@\reset`) is refused without a message.
* C112: in a window below 512x320 (both directions) the GUI divides by zero and converts the infinite quotient to an int; with -scale a window size can leave uint16_t, an undefined conversion.
* C113: the GUI runs all missed screen updates in one frame after a break, hangs in a frame while the standard input never pauses, and takes a failed read (a signal) for the end of the input.

Noticed while reading, without a theorem:

* chess.c: the pool of value nodes is recycled while entries that wait in the list still point to halves in it; a routine with outputs on the return stack cannot be called; a type token whose length is a multiple of 256 reads `chars[-1]`; entries that are forked lose the cast of their opcode.
* asm.c: `make_lambda_name` writes one byte too many for ids from 0x1000; label ids wrap after 65535 and then trip an assert in the front end; an I/O error in peek_char reads as 0; macro expansion can be exponential.
* dbg/core.c: writes of the client to the stack pointers while paused are lost; BRKP_GET of number 255 replies with stale bytes.

## Trusted base

* Coq's kernel, 8.16.1.
* The transcription of the C code into the model files, with the
  simplifications stated there.
* No axioms: `Print Assumptions` stands under every property theorem and says
  "Closed under the global context" for each of them.  (ssrunder, which is part
  of the standard library and is loaded by other parts of it, declares the
  module parameters `Under_rel.*`; no theorem here depends on them.)
