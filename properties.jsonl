{"id": "C01", "title": "Every opcode computes the Uxn stack effect", "statement": "Executing one instruction from any machine state consumes exactly the operands the opcode reference prescribes, pushes exactly the prescribed results modulo the operand width, moves the program counter as prescribed, and leaves every other stack cell, memory byte and device byte as it was.", "quantifier": "all 256 opcode bytes, all contents and pointer positions of both stacks (including wrap-around at 256), all memory contents, all program counters", "why_tests_cant": "256 opcodes times 2^(8*(256+256)) stack contents times all memories; boundary interplay of keep/short/return modes with pointer wrap-around is never enumerated", "anchors": ["src/vm/exec.h: BUXN_OPCODE_*", "include/buxn/vm/opcodes.h: BUXN_OPCODE_DISPATCH"]}
{"id": "C02", "title": "Keep mode never consumes operands", "statement": "The keep variant of an opcode computes the same results from the same operands as the plain variant, but leaves the operands on the stack below the results.", "quantifier": "all keep opcodes, all states", "why_tests_cant": "each of the 124 keep variants has to be compared with its plain variant on every state", "anchors": ["src/vm/exec.h:63-94"]}
{"id": "C03", "title": "Return mode is the stack-swap image of the plain mode", "statement": "Executing an opcode with the return flag equals swapping the two stacks, executing the opcode without the flag, and swapping back.", "quantifier": "all opcode bytes that carry a return variant, all states", "why_tests_cant": "a relational property between two executions over all states", "anchors": ["src/vm/exec.h:54-118"]}
{"id": "C04", "title": "The CPU only touches the first 64 KiB of memory, both 256-byte stacks and the 256-byte device page", "statement": "No instruction reads or writes outside the 65536-byte address space, the two stacks or the device page, whatever the pointers hold, provided the host allocated at least 64 KiB; memory at or above 0x10000 is never changed by a CPU instruction.", "quantifier": "all instruction sequences of any length, all states with memory_size >= 65536, all device callbacks", "why_tests_cant": "absence of out-of-bounds access over all programs", "anchors": ["src/vm/exec.h:120-177", "include/buxn/vm/vm.h: buxn_vm_t"]}
{"id": "C05", "title": "Zero-page and relative addressing wrap where documented", "statement": "A short access at zero-page address 0xff uses bytes 0xff and 0x00; absolute and relative short accesses at 0xffff use bytes 0xffff and 0x0000; relative targets are the address of the next instruction plus the signed offset modulo 65536.", "quantifier": "all addresses, all offsets, all program counters", "why_tests_cant": "the wrap cases are single points inside 2^24 combinations of pc, offset and mode", "anchors": ["src/vm/exec.h:122-156,304-350"]}
{"id": "C06", "title": "A hook that does not modify the VM is unobservable", "statement": "Running a vector with a per-instruction hook that leaves the VM unchanged ends in the same VM state and produces the same device traffic as running it without a hook; the hook sees, before each instruction, the address of that instruction and stack pointers equal to the real ones.", "quantifier": "all programs, all run lengths, all device callbacks, all hooks that do not write the VM", "why_tests_cant": "a relational property between two compiled interpreter loops over all programs", "anchors": ["src/vm/vm.c:34-63", "src/vm/exec.h:5-60"]}
{"id": "C07", "title": "Vector evaluation ends exactly at BRK", "statement": "Executing vector address 0 does nothing; executing any other vector returns if and only if control reaches a 0x00 byte, and at return the stacks of the VM hold what the last instruction left.", "quantifier": "all programs, all start addresses", "why_tests_cant": "quantifies over unbounded executions", "anchors": ["src/vm/vm.c:34-44", "src/vm/exec.h:428-447"]}
{"id": "C08", "title": "Reset clears exactly what the flags name", "statement": "For every combination of reset flags, each named region is zero afterwards and every other byte of the VM is unchanged; the soft reset keeps the zero page and the device page.", "quantifier": "all 2^4 flag combinations (and any extra bits), all states, all memory sizes >= 256", "why_tests_cant": "frame condition over the whole state", "anchors": ["src/vm/vm.c:12-31", "include/buxn/vm/vm.h:27-37"]}
{"id": "C09", "title": "The interpreter loop has no undefined arithmetic except short multiplication", "statement": "Executing an instruction can only cause C undefined behaviour through MUL2/MUL2k/MUL2r/MUL2kr with a product above 2^31-1; in every other case all intermediate values fit their C types.", "quantifier": "all opcode bytes, all states", "why_tests_cant": "UB freedom for all operand values", "anchors": ["src/vm/exec.h:372-402"]}
{"id": "C10", "title": "Deterministic device traffic of DEI/DEO", "statement": "DEO writes the value into the device page at the port (both bytes first for short mode, wrapping at 0xff) and then invokes the output callback for the port and, in short mode, for the next port; DEI asks the input callback; callbacks observe up to date stack pointers and changes they make to the stack pointers take effect.", "quantifier": "all ports, all values, all callbacks, both stacks", "why_tests_cant": "depends on arbitrary host callbacks", "anchors": ["src/vm/exec.h:159-177,352-370"]}
{"id": "C11", "title": "System expansion fill writes exactly the requested range", "statement": "A fill command sets exactly the bytes of the requested range that lie inside the configured memory to the fill value and changes nothing else, for ranges that start inside memory; for a start outside memory the code instead overwrites the last byte of memory (recorded as a deviation).", "quantifier": "all command addresses, banks, addresses, lengths, values, memory sizes from 64 KiB to 1 MiB", "why_tests_cant": "2^70 argument combinations including wrap-around of the command block itself", "anchors": ["src/devices/system.c:23-40"]}
{"id": "C12", "title": "System expansion copies behave as ascending/descending byte copies", "statement": "The ascending copy equals copying byte by byte from the first byte up, the descending copy from the last byte down; both clip the length so that neither range leaves memory; when source and destination do not overlap in the harmful direction the destination afterwards equals the old source (memmove).", "quantifier": "all command addresses, source/destination banks and addresses, lengths, memory sizes", "why_tests_cant": "overlap behaviour over all source/destination/length triples", "anchors": ["src/devices/system.c:41-67"]}
{"id": "C13", "title": "The expansion port never accesses memory outside the allocation", "statement": "Whatever the bytes of the expansion command, no read or write leaves the memory of memory_size bytes, except for one identified case (a fill command block within the last 7 bytes of a 64 KiB memory).", "quantifier": "all memories, all device pages, all memory sizes from 64 KiB to 1 MiB", "why_tests_cant": "the bytes of the command block are arbitrary attacker-controlled data", "anchors": ["src/devices/system.c:20-69"]}
{"id": "C14", "title": "Exit status protocol", "statement": "The exit code is -1 exactly while System/state is zero; otherwise it is the low seven bits, so a program asking for exit code n in 0..127 by writing 0x80|n gets n.", "quantifier": "all device pages", "why_tests_cant": "simple but universal; combined with every host loop that polls it", "anchors": ["src/devices/system.c:5-9"]}
{"id": "C15", "title": "Palette decoding", "statement": "Each of the four palette entries is opaque and has red, green and blue equal to 17 times the corresponding nibble of the three colour registers, for every register content.", "quantifier": "all values of the six colour bytes", "why_tests_cant": "2^48 register contents", "anchors": ["src/devices/system.c:88-106"]}
{"id": "C16", "title": "Command line arguments are delivered as the documented event sequence", "statement": "For any argument vector the console vector is run once per character with type 2, once between arguments with type 3 and value newline, once after the last argument with type 4 and value newline, in order, and the device reports type and value of the current event during each run; with no arguments no event is sent.", "quantifier": "all argument vectors, all programs reacting to the events (including programs that change the console vector)", "why_tests_cant": "unbounded argument lists and arbitrary program reactions", "anchors": ["src/devices/console.c:18-52"]}
{"id": "C17", "title": "Controller and mouse button bits are independent", "statement": "After any sequence of press and release events, the button byte of each controller has exactly the bits set whose last event was a press; events on one controller or button never affect another; the same holds for mouse buttons, and a sent character is visible only during its own event.", "quantifier": "all event histories", "why_tests_cant": "unbounded histories", "anchors": ["include/buxn/devices/controller.h: buxn_controller_set_button", "include/buxn/devices/mouse.h: buxn_mouse_set_button"]}
{"id": "C18", "title": "Metadata parsing stays inside the ROM or memory", "statement": "Parsing metadata from VM memory or from a ROM image of any size and content never reads outside the image, returns content that is the bytes between the version byte and the first zero, and reports only extensions that lie completely inside the image; reading extension i of the result stays inside the image. One exception for ROM images is identified exactly.", "quantifier": "all images, sizes and addresses", "why_tests_cant": "arbitrary untrusted files", "anchors": ["src/metadata.c"]}
{"id": "C19", "title": "File paths handed to the host are NUL-terminated and bounded", "statement": "The path given to every host file function is the non-empty run of non-zero bytes found at the name address (wrapping at 64 KiB), it is shorter than 1024 bytes, and when the name is empty or longer the host is never called.", "quantifier": "all memories, all name addresses", "why_tests_cant": "arbitrary memory contents", "anchors": ["src/devices/file.c:7-25"]}
{"id": "C20", "title": "File transfers stay inside the 64 KiB address space", "statement": "No stat, read or write transfer touches memory beyond 0xffff or outside the requested range, whatever length the program asks for and however the host splits the transfer; the success register is the number of bytes actually transferred.", "quantifier": "all addresses, lengths, memory contents, and all host behaviours that return at most the requested count", "why_tests_cant": "quantifies over the host's short reads/writes", "anchors": ["src/devices/file.c:94-250"]}
{"id": "C21", "title": "File size formatting", "statement": "For a regular file, stat writes the size as exactly n lower-case hexadecimal digits (most significant first) when the size fits, and n question marks otherwise; directories give n dashes and missing files n exclamation marks.", "quantifier": "all sizes, all lengths", "why_tests_cant": "unbounded sizes and lengths", "anchors": ["src/devices/file.c:70-92"]}
{"id": "C22", "title": "File handles are used linearly", "statement": "Over any history of port writes, the device never uses or closes a handle it does not own, closes each handle at most once with the close function of its kind, and owns at most one handle at any time, so no handle is leaked as long as it is eventually renamed.", "quantifier": "all histories of port writes, all host responses", "why_tests_cant": "temporal property over unbounded histories with an adversarial host", "anchors": ["src/devices/file.c:27-68,110-250"]}
{"id": "C23", "title": "Directory reads return the listing as one stream", "statement": "The concatenation of the bytes delivered by successive reads of a freshly opened directory is a prefix of the concatenation of the lines 'ssss name\\n' of its entries, however the program splits its reads.", "quantifier": "all directories whose names fit, all splittings into reads", "why_tests_cant": "all splittings of an unbounded stream", "anchors": ["src/devices/file.c:165-206"]}
{"id": "C24", "title": "What the first read of a newly named directory returns", "statement": "After the name port is written, the reads of the newly named directory deliver first the undelivered rest of the line that was buffered from the directory read before (the device does not discard it), and then the listing of the new directory from its first entry; in particular the claim that the next read starts with the first entry of the new directory is false, and it is true when the previous line had been delivered completely.", "quantifier": "all histories", "why_tests_cant": "stale state across histories; a test that reads whole lines never sees it", "anchors": ["src/devices/file.c:141-206"]}
{"id": "C25", "title": "Audio rendering reads only the configured sample and writes only the output buffer", "statement": "Rendering any number of frames and channels writes exactly the frames requested (or stops early), reads only sample bytes with index below the clamped length, and never divides by zero.", "quantifier": "all voice states reachable from any messages, all buffer lengths, all channel counts >= 1", "why_tests_cant": "unbounded playback histories", "anchors": ["src/devices/audio.c:44-153"]}
{"id": "C26", "title": "Audio envelope and meter ranges", "statement": "The envelope is always between 0 and 0x888 and follows attack, decay, sustain and release phases of adsr-nibble fifteenths of a second; it is 0 only at the very start of the attack, in the last samples of the release and after it; the meter has one nibble per channel, 0 exactly when the channel volume is 0 and at most 15.", "quantifier": "all ADSR settings, sample rates up to 192 kHz, all ages", "why_tests_cant": "2^48 combinations with division", "anchors": ["src/devices/audio.c:21-42"]}
{"id": "C27", "title": "The audio thread receives submitted notes in order and without duplication", "statement": "Under every interleaving of the emulator thread and the audio callback, each note received was sent, notes of one voice are received in the order sent, none twice, and a sent note is lost only because a later note of the same voice replaced it before hand-over; the two threads never access the same message buffer at the same time.", "quantifier": "all interleavings (schedules), all message sequences", "why_tests_cant": "concurrency: every schedule", "anchors": ["src/gui.c:437-491"]}
{"id": "C28", "title": "Pixel and sprite drawing stays inside the framebuffer", "statement": "Pixel-mode and sprite-mode drawing never write outside the layer memory for any register contents, control byte and auto-increment history, on screens of up to 32752 by 32752 pixels; fill mode does not for coordinates inside the screen, and the exact set of coordinates for which fill mode writes outside is characterised.", "quantifier": "all register values, control bytes, screen sizes, histories of draws", "why_tests_cant": "2^40 register combinations and unbounded histories", "anchors": ["src/devices/screen.c:133-261"]}
{"id": "C29", "title": "Incremental rendering equals full rendering", "statement": "After any sequence of draws, size changes, theme changes and renders, rendering only the dirty rectangle leaves the target with the same visible pixels as re-rendering the whole layer, provided drawn sprites do not wrap around into view and fills do not run past the margin of the screen. A frame reports a change exactly if a pixel of the screen was marked for redrawing, and marks none afterwards.", "quantifier": "all histories of draws, renders and refreshes", "why_tests_cant": "an invariant over unbounded histories; tests compare a few frames", "anchors": ["src/devices/screen.c:29-99,156-273"]}
{"id": "C30", "title": "Sprite blending", "statement": "Drawing a sprite changes exactly the visible pixels of the 8x8 cells it covers: each to the colour the blending table gives for its 1- or 2-bit value, flipped as requested, leaving pixels alone where the value is 0 in a transparent blend mode; layer cells always stay below 4.", "quantifier": "all sprites, blend modes, flips, positions, layers", "why_tests_cant": "all 2^128 sprites times 2^40 positions", "anchors": ["src/devices/screen.c:195-259"]}
{"id": "C31", "title": "The breakpoint table behaves as a map", "statement": "After any sequence of set commands, getting a breakpoint returns the last value set for that id, the reported count is one more than the largest id with a non-zero mask, and the hook is requested exactly when some mask is non-zero or a pause/step is pending.", "quantifier": "all histories of set/get commands", "why_tests_cant": "unbounded histories with trimming at the end of the table", "anchors": ["src/dbg/core.c:65-69,268-298"]}
{"id": "C32", "title": "Breakpoints hit exactly on the accesses they name", "statement": "At each instruction the reported breakpoint is the lowest-numbered one whose kind and address match the instruction about to execute (its own address for execution; the addresses it will read or write for load/store), checked against what the instruction really does; exceptions at wrap-around addresses are identified exactly.", "quantifier": "all instructions, all stacks, all breakpoint tables", "why_tests_cant": "requires agreement of two independent decoders over all states", "anchors": ["src/dbg/core.c:71-198", "src/vm/exec.h"]}
{"id": "C33", "title": "Pause, step-in, step-over, step-out and resume", "statement": "Resume runs to the next pausing breakpoint or the end; step-in stops at the next instruction; step-over stops at the next instruction at which the return stack has the same depth; step-out at the first with smaller depth; nothing else stops execution.", "quantifier": "all programs, all command sequences", "why_tests_cant": "temporal property over unbounded executions", "anchors": ["src/dbg/core.c:205-266"]}
{"id": "C34", "title": "Debugger event trace is well nested", "statement": "The wire sees begin-exec, then any number of begin-break ... end-break groups, then end-exec, for every vector run under the debugger, and commands are only consumed inside a break group.", "quantifier": "all programs, all command sequences, all breakpoints", "why_tests_cant": "trace language inclusion over unbounded executions", "anchors": ["src/dbg/core.c:71-334"]}
{"id": "C35", "title": "Inspection commands do not disturb the program", "statement": "Info, breakpoint get, memory read commands leave the VM unchanged and return its true contents with wrap-around addresses; memory write changes exactly the addressed bytes.", "quantifier": "all command sequences, all VM states", "why_tests_cant": "frame condition over all states", "anchors": ["src/dbg/core.c:227-324"]}
{"id": "C36", "title": "Debug protocol messages round-trip", "statement": "Every command and notification encoded by one side of the wire protocol is decoded by the other side to an equal message, except for the identified size truncation of memory writes.", "quantifier": "all messages", "why_tests_cant": "all field values and payload lengths", "anchors": ["src/dbg/protocol.c", "src/dbg/wire.c"]}
{"id": "C37", "title": "Symbol file round trip", "statement": "Writing any list of symbols with any file names and reading it back yields the same symbols in the same order with the same file names and positions, and each distinct file name is stored once. Every number of an accepted symbol fits into its variable or was missing from the file.", "quantifier": "all symbol lists, all strings", "why_tests_cant": "unbounded lists and hash collisions", "anchors": ["src/dbg/symtab.c"]}
{"id": "C38", "title": "Hash array mapped trie is a finite map", "statement": "After any sequence of insertions, a lookup finds a key exactly if it was inserted, returning the node created for it, for every hash function including total collisions.", "quantifier": "all key sequences, all hash functions", "why_tests_cant": "collision behaviour over all hash functions and histories", "anchors": ["src/asm/hamt.h"]}
{"id": "C39", "title": "The assembler reports failure exactly when it reported an error", "statement": "The assembler returns failure exactly when at least one diagnostic of level error was reported, and never silently drops a failure.", "quantifier": "all source texts, all include structures", "why_tests_cant": "all inputs", "anchors": ["src/asm/asm.c:2397-2421"]}
{"id": "C40", "title": "The assembler never writes below 0x100 and never beyond 64 KiB", "statement": "Every ROM byte handed to the host has an address between 0x100 and 0xffff; an attempt to write elsewhere is an error.", "quantifier": "all source texts", "why_tests_cant": "all inputs", "anchors": ["src/asm/asm.c:1002-1077"]}
{"id": "C41", "title": "Every label reference gets the address of its label", "statement": "In a successfully assembled program, each reference, whether it precedes or follows the label and whatever its mode, is encoded as the final address of that label (low byte, relative displacement or absolute short); a relative reference out of range or an unknown label is an error.", "quantifier": "all programs and placements of labels and references", "why_tests_cant": "back-patching over all programs", "anchors": ["src/asm/asm.c:1080-1438"]}
{"id": "C42", "title": "Opcode mnemonics", "statement": "The assembler accepts exactly the documented mnemonics with any combination and order of the mode suffixes and encodes each as the byte the VM decodes to that operation; each of the 256 bytes is reachable or is one of the immediate forms.", "quantifier": "all token strings", "why_tests_cant": "all strings, not only the mnemonics", "anchors": ["src/asm/asm.c:427-484", "include/buxn/vm/opcodes.h"]}
{"id": "C43", "title": "Numeric literals", "statement": "Hexadecimal and decimal literals are accepted exactly in the documented forms and emit the bytes of their value; anything else is rejected with an error.", "quantifier": "all token strings", "why_tests_cant": "all strings", "anchors": ["src/asm/asm.c:1726-1918"]}
{"id": "C44", "title": "An assembled jump lands on its label when run", "statement": "A jump, conditional jump or call assembled to a label, executed by the VM at the place where it was assembled, continues at the address of the label (and for calls returns to the byte after it).", "quantifier": "all addresses of source and target", "why_tests_cant": "relates assembler and VM for every displacement including wrap-around and range limits", "anchors": ["src/asm/asm.c:1178-1370", "src/vm/exec.h:122-125,475-495"]}
{"id": "C45", "title": "Macro expansion terminates", "statement": "No source text makes the assembler expand macros or includes forever: nesting beyond the limit is an error and each token is produced by a finite number of expansions.", "quantifier": "all source texts, including mutually recursive macros and includes", "why_tests_cant": "termination for all inputs", "anchors": ["src/asm/asm.c:1617-1640,1920-1985,2097-2142,2366-2395"]}
{"id": "C46", "title": "Comment nesting", "statement": "A comment ends exactly at its matching close parenthesis; text inside never emits bytes; an unclosed comment is an error.", "quantifier": "all token sequences", "why_tests_cant": "all nestings", "anchors": ["src/asm/asm.c:1443-1493"]}
{"id": "C47", "title": "Annotation dispatch", "statement": "The annotation spy delivers each annotation exactly once to the label, macro or token it is attached to, in source order, for every stream of symbols.", "quantifier": "all symbol streams", "why_tests_cant": "state machine over unbounded streams", "anchors": ["src/asm/annotation.c"]}
{"id": "C48", "title": "Embedded ROM round trip", "statement": "Appending any ROM to any executable and searching the result finds exactly the appended ROM, whatever bytes the executable and ROM contain.", "quantifier": "all executables and ROMs shorter than 2^31", "why_tests_cant": "arbitrary file contents, including files that already contain the marker", "anchors": ["src/bembd.h:9-84"]}
{"id": "C49", "title": "Boot ROM loading stays inside memory", "statement": "Loading a ROM file of any size into the CLI emulator writes only inside VM memory; the exact file sizes for which the code writes outside are identified.", "quantifier": "all file sizes and contents", "why_tests_cant": "arbitrary files", "anchors": ["src/cli.c:112-188"]}
{"id": "C50", "title": "Written ROM file", "statement": "The ROM file written by the assembler front end contains, at each offset, the last byte emitted for that address (zero if none), and ends at the last non-zero byte.", "quantifier": "all emission histories", "why_tests_cant": "all histories", "anchors": ["src/asm.c:81-86,483-516"]}
{"id": "C51", "title": "The type checker's stack depth equals the machine's", "statement": "For straight-line code, whenever the abstract evaluation of the type checker pops and pushes without reporting an error, the net change of the byte depth of both stacks equals the change of the stack pointers in the VM for the same opcode.", "quantifier": "all opcodes, all abstract stacks", "why_tests_cant": "soundness over all abstract states", "anchors": ["src/asm/chess.c:559-718,906-1637"]}
{"id": "C52", "title": "The type checker detects every stack overflow", "statement": "A program path that pushes more than 256 bytes on a stack is reported; the 8-bit size counter of the checker breaks this at exactly 256 bytes.", "quantifier": "all push sequences", "why_tests_cant": "depends on the wrap-around of a counter after long histories", "anchors": ["src/asm/chess.c:683-718", "include/buxn/asm/chess.h"]}
{"id": "C53", "title": "A finished voice evaluates its own vector", "statement": "When a voice finishes, the vector evaluated is the one in the ports of that voice's device; the code passes BUXN_DEVICE_AUDIO_0 + i although the devices are 16 apart, so this holds for voice 0 only.", "quantifier": "all device pages and voices", "why_tests_cant": "only shows with several voices in use and depends on the bytes in unrelated ports", "anchors": ["src/gui.c:611-618", "src/devices/audio.c: buxn_audio_notify_finished"]}
{"id": "C54", "title": "One audio callback keeps the last voice's sound", "statement": "The buffer of one audio callback is fully determined: each cell holds what the last voice that wrote it put there and 0 if none did; voices are not added up, contrary to what a mixer would do. The callback reports exactly the voices whose sound has ended.", "quantifier": "all voices in reachable states, all buffer sizes and channel counts", "why_tests_cant": "all combinations of voices that stop at different frames", "anchors": ["src/gui.c: audio_callback", "src/devices/audio.c: buxn_audio_render"]}
{"id": "C55", "title": "The debugger client is told exactly what the program does", "statement": "Seen from the client, the stream sent by the wire is the faithful, ordered transcript of what the debugger core did: begin and end of every vector and break, PAUSED exactly for breaks that wait for commands, and for every command of the client exactly one reply carrying the answer of the core; and the core executes exactly the commands of the client, in order.", "quantifier": "all command sequences of a client within the limits of the protocol, all programs, machines and hosts, all vectors executed", "why_tests_cant": "the reply is sent lazily, before the next command or the end of the break; pairing over all command and break sequences cannot be enumerated", "anchors": ["src/dbg/wire.c:5-121", "src/dbg/core.c:71-334"]}
{"id": "C56", "title": "A lost debugger client cannot stall or corrupt the program", "statement": "After the command stream has ended, failed or delivered something other than a request, every further command is RESUME; after a message could not be sent nothing more is sent. A notification is sent as a whole or the output is given up.", "quantifier": "all wire states, all streams, all points of failure", "why_tests_cant": "the failure can occur at any value of any message", "anchors": ["src/dbg/wire.c:5-121"]}
{"id": "C57", "title": "The assembler accepts exactly the programs of the language", "statement": "A source file without macros and includes is assembled exactly if, by an independent two-pass description of the language, every word is right, all comments and lambdas are closed and every reference is to a label that is defined and within reach; the ROM then holds the bytes that description gives, computed with the final label addresses.", "quantifier": "all text files in which no word begins with % or ~", "why_tests_cant": "acceptance and rejection of every text cannot be enumerated; the one-pass assembler with back-patching has to agree with a two-pass description", "anchors": ["src/asm/asm.c:487-613,1002-1440,1641-2095,2144-2421"]}
{"id": "C58", "title": "The .sym file lists the labels", "statement": "Read back as big-endian address and zero-terminated name, the .sym file written next to a ROM gives every label the assembler announced, in order, with its address and name.", "quantifier": "all sources, successful or not", "why_tests_cant": "all label names and addresses, and every interleaving with other symbols", "anchors": ["src/asm.c:88-106"]}
{"id": "C59", "title": "A program that passes the type checker never underflows", "statement": "If the type checker accepts a program without a message, then no instruction the VM executes from the start of that program takes a byte from an empty stack.", "quantifier": "all programs, all executions, all hosts", "why_tests_cant": "a soundness claim about every program and every execution", "anchors": ["src/asm/chess.c:906-923,1157-1222,1940-2077", "doc/chess.md"]}
{"id": "C60", "title": "The type checker returns", "statement": "For every assembled program the analysis ends.", "quantifier": "all programs, any number of steps of the analysis", "why_tests_cant": "non-termination cannot be observed by a test of any length", "anchors": ["src/asm/chess.c:1080-1155,1967-2062,2508-2516"]}
{"id": "C61", "title": "The type checker has no undefined behaviour", "statement": "Whatever program it analyses, the checker reads the ROM and its stacks inside their arrays, violates no assertion and computes without signed overflow.", "quantifier": "all programs", "why_tests_cant": "all abstract states of all programs", "anchors": ["src/asm/chess.c:559-660,1009-1047,1480-1560,1999-2013"]}
{"id": "C62", "title": "The trace announces how the analysis of a routine ended", "statement": "When the analysis of a routine ends, the host is told whether it went well. In fact it is always told that it did not, because the flag is never set.", "quantifier": "all programs, all routines", "why_tests_cant": "all analyses", "anchors": ["src/asm/chess.c:138-153,435-451,1940-2077"]}
{"id": "C63", "title": "The type checker fails exactly if it reports an error", "statement": "The result of the type check is false if and only if at least one error was reported to the host.", "quantifier": "all programs on which the checker returns", "why_tests_cant": "every one of the paths on which an error is found or forgotten", "anchors": ["src/asm/chess.c:435-464,2484-2554"]}
{"id": "C64", "title": "A transport string opens the connection it documents", "statement": "Each documented form of a debug transport string (file:, abstract-connect:, abstract-listen:, unix-connect:, unix-listen:, tcp-connect:node:service, tcp-listen:port) yields a connection of that kind to exactly that name; every other string is refused. In fact fifo: is refused although documented, a tcp-connect service is read without a terminator, and a tcp-listen port is byte-swapped on little-endian machines.", "quantifier": "all strings, all contents of the uninitialised stack, both byte orders", "why_tests_cant": "strings of any length; the behaviour depends on uninitialised memory and on the byte order", "anchors": ["src/dbg/transports/from_str.c", "src/bflag.h"]}
{"id": "C65", "title": "No socket descriptor is leaked", "statement": "Whatever bind, listen, accept and connect return, every descriptor that was opened by the transport is either closed or returned to the caller, and an interrupted accept is tried again.", "quantifier": "all results of the system calls, any number of interruptions", "why_tests_cant": "combinations of failing system calls, any number of interruptions", "anchors": ["src/dbg/transports/stream.c"]}
{"id": "C66", "title": "The debugger wrapper runs the command with the descriptor it opened", "statement": "buxn-dbg-wrapper executes exactly the arguments after its own options, and the descriptor number that it puts into the environment is the one that the emulator reads back.", "quantifier": "all argument lists, all descriptors below INT_MAX", "why_tests_cant": "argument lists of any length, every descriptor number", "anchors": ["src/dbg-wrapper.c", "src/cli.c", "src/bflag.h"]}
{"id": "C67", "title": "The ROM viewer shows each byte with the symbol that describes it", "statement": "If the symbols are sorted by address, every byte on the screen is drawn with the first symbol whose address range contains it and the byte under the cursor is on the screen. In fact the symbols of a program that is not written in ascending order are not sorted, and a terminal with fewer than 12 columns divides by zero.", "quantifier": "all ROMs, symbol files, terminal sizes of at least 12 columns, cursor positions", "why_tests_cant": "every combination of window, scroll position and symbols", "anchors": ["src/romviz.c"]}
{"id": "C68", "title": "The source text and the cursor of the ROM viewer", "statement": "The range of source text that is highlighted lies inside the source; for a symbol inside the file it is the text of the symbol, except at the end of the file where the last character is dropped. The arrow keys move the cursor by a byte or a row and stop at the ends of the ROM, and Enter on a reference goes to the first label with the id of the reference.", "quantifier": "all source sizes, symbols and cursor positions", "why_tests_cant": "arithmetic on arbitrary offsets", "anchors": ["src/romviz.c"]}
{"id": "C69", "title": "Every byte of the ROM is mapped to a symbol", "statement": "When the assembler succeeds, an address receives a byte if and only if the host was given a symbol of type opcode, number, label reference or text for that address.", "quantifier": "all source files with any includes and macros, all addresses", "why_tests_cant": "all programs; the symbol of a reference is given before its bytes are completed", "anchors": ["doc/asm.md:24", "src/asm/asm.c:1002-1278", "src/asm/asm.c:1986-2094"]}
{"id": "C70", "title": "The symbols of opcodes and numbers tell what the byte is", "statement": "In a successful run, if an address is described by one symbol only, then the ROM has the opcode of an opcode symbol there, and one of the two bytes of the value of a number symbol. Where code is written over code not even the last symbol is right.", "quantifier": "all source files, all addresses described in one way", "why_tests_cant": "all programs, including references completed after other code was written", "anchors": ["src/asm/asm.c:1021-1077", "src/asm/asm.c:885-946"]}
{"id": "C71", "title": "The debug file and the ROM viewer show the right symbol for each byte", "statement": "For a program whose code is written in ascending order, the debug file is in the order the viewer needs and the viewer shows every byte of the ROM with the kind and source position of a symbol of its address. For other programs, and for the id of the symbol, merging of entries breaks this.", "quantifier": "all source files whose code ascends, all terminal sizes and cursor positions", "why_tests_cant": "composition of three programs over all inputs", "anchors": ["src/asm.c:47-130", "src/romviz.c", "src/asm/asm.c"]}
{"id": "C72", "title": "A session with the command-line emulator", "statement": "buxn-cli runs the program from 0x100, hands it all arguments as console events unless it wants a non-zero exit code, then the bytes of standard input and the end of input for as long as it has not asked to exit and has a console vector; the exit code of the process is the low seven bits of System/state. A program that asks for exit code zero at its start still gets its arguments, and a wish during the arguments does not stop them.", "quantifier": "all programs, devices, argument vectors and inputs", "why_tests_cant": "the order of events depends on what the program does with the vector and the state port at any time", "anchors": ["src/cli.c:112-187", "src/devices/console.c"]}
{"id": "C73", "title": "Ports reach the device that owns them and output is what was written", "statement": "The three emulators hand every port to the device owning its page; ports without a device read as last written. Standard output of buxn-cli is exactly the bytes written to port 0x18 in order, standard error exactly those written to 0x19 and a dump of both stacks for each non-zero byte written to 0x0e.", "quantifier": "all ports, programs, arguments, inputs, file systems", "why_tests_cant": "quantifies over all runs of all programs", "anchors": ["src/cli.c:20-110", "src/gui.c:199-280", "src/repl.c:230-276"]}
{"id": "C74", "title": "The command-line emulator does not fail", "statement": "For every ROM that fits the memory, given as a file or embedded in the executable, with all arguments, input, files and clock values, the process starts the ROM in a zeroed machine and either runs on, ends with an exit code in 0..127 with its file handles in order, or overflows in a short multiplication; an executable made by rom2exe behaves as the emulator with the ROM file.", "quantifier": "all ROMs up to 1048320 bytes, all arguments, inputs, hosts and lengths of run", "why_tests_cant": "absence of faults over all programs and environments", "anchors": ["src/cli.c", "src/bembd.h", "src/devices/system.c", "src/devices/file.c"]}
{"id": "C75", "title": "The clock", "statement": "Each port of the datetime device reads as its component of the local time of that moment, 1900 with all else zero when the time is unknown. A short read of the year or the day of the year is right if the component is the same at both byte reads; otherwise it can be a value that is neither.", "quantifier": "all times of all reads, both evaluation orders", "why_tests_cant": "the fault needs the clock to change between two byte reads", "anchors": ["src/devices/datetime.c", "src/vm/exec.h:159-163"]}
{"id": "C76", "title": "Positions lead to the source", "statement": "The region of every symbol, and of every diagnostic except that for a file that cannot be opened, lies in an existing file: line, column and byte of both ends are those of one place in the file, and the end is not before the start. At the region of a label the file has its definition (@name, or &local for scope/local), at that of a macro %name, unless the text contains the macro argument. With CR LF the byte offsets are those of a file without the line feeds.", "quantifier": "all source files without carriage returns, all includes and macros, successful and failed runs", "why_tests_cant": "positions are carried through includes, macros and a look-ahead character; a test sees a few of them", "anchors": ["src/asm/asm.c:480-760", "src/asm/asm.c:996-1100"]}
{"id": "C77", "title": "A name is defined once and every reference has its definition", "statement": "Among the symbols of a run, failed or not, no name of a label or macro is defined twice; in a successful run each reference of a label has a label symbol with the same id and name. Only labels are ever marked as generated, with a name that starts with '@', and the symbol of a bracket has the id 0.", "quantifier": "all source files, includes and macros", "why_tests_cant": "ranges over all orders of definition and reference, with forward references patched later", "anchors": ["src/asm/asm.c:780-960", "src/asm/asm.c:1080-1160"]}
{"id": "C78", "title": "The tags file", "statement": "For ordinary source files the file of buxn-ctags has the header and exactly one line of four fields per label and macro, sorted by bytes and without equal names, so a binary search finds each one; the command of a line is the position of the definition in its file. Which qsort is used makes no difference. The exit code is 0 also for a program with errors if something is defined; without any definition a failed run leaves the old file alone.", "quantifier": "all source files of printable characters without macro arguments, all conforming qsort, all output names", "why_tests_cant": "the order depends on the qsort of the host and the names of the program", "anchors": ["src/ctags.c"]}
{"id": "C79", "title": "The generated header", "statement": "buxn-bindgen writes exactly the labels of the annotated sections as constants, in order, each in the block of its section, with the address as value (for a command the offset from its start). A command block whose members lie at increasing addresses becomes a struct with one field per member, uint8_t if the next symbol is one byte on and uint16_t otherwise; the generated write function puts each value at its member, high byte first, changes nothing else, and the read function gives the values back.", "quantifier": "all sequences of symbols made of whole comments and named labels (see C80), all positions of the block, all values and addresses of the struct", "why_tests_cant": "fields are found from the order and addresses of all symbols that follow", "anchors": ["src/bindgen.c"]}
{"id": "C80", "title": "Comments reach the tools whole", "statement": "In every run of the assembler the comment symbols come as whole comments with nothing in between: a first one with id 0 that starts with a parenthesis, then words at the same address whose id is the depth of parentheses, up to the one that closes the comment. Only a failed run can end within a comment. So every program that assembles, with comments less than 65536 deep, meets the assumptions of the annotations (C47) and of the header (C79).", "quantifier": "all source files, includes and macros, successful and failed runs", "why_tests_cant": "ranges over all nestings of files, macros and comments", "anchors": ["src/asm/asm.c:1443-1483", "src/asm/annotation.c"]}
{"id": "C81", "title": "What a program reads from the graphical emulator's ports", "statement": "Reading a port of the graphical emulator gives the documented value: the stack depths, the console byte and its type, the screen size and registers, the pointer, the buttons, the character, the date and time, the file results; ports without a value of their own give the byte last written. A read changes no device that a program can see, except that a pending change of screen size takes effect. Reading a voice gives its level, and a two-byte read gives its position.", "quantifier": "all ports, machines, device states, clocks and states of the voices", "why_tests_cant": "256 ports times all states of all devices", "anchors": ["src/gui.c:199-238", "src/devices"]}
{"id": "C82", "title": "The console of the graphical emulator", "statement": "The lines logged are the bytes written to the console ports in order, cut after every newline and after 255 bytes without one, each up to its first zero byte; what is pending has no newline and fewer than 255 bytes. Output and error stream never mix, and no write leaves the buffer.", "quantifier": "all programs, all sequences of vector runs and host actions between them, all bytes", "why_tests_cant": "ranges over all byte sequences across any number of runs", "anchors": ["src/gui.c:328-362"]}
{"id": "C83", "title": "Events reach the program", "statement": "After any sequence of events, the mouse state is one bit per button held down, the controller byte one bit per button held down (keys, or the modifiers of the last character). Each event runs exactly the vector of its device, while that runs the device shows the event (the scroll amounts and the character are zero again after it), and the pointer is where the event says, within 0 and the screen size. On a touch screen the first finger drags the pointer, the left button is held while it drags with a second finger down, and lifting the second finger is a click: the vector sees the button down and then up. Other fingers do nothing. With touches alone, the left button is never left held without a second finger.", "quantifier": "all sequences of events, interleaved with any vector runs of any programs", "why_tests_cant": "ranges over all histories of events", "anchors": ["src/gui.c:706-935", "src/devices/mouse.c", "src/devices/controller.c"]}
{"id": "C84", "title": "The picture on the screen is the picture drawn", "statement": "After every frame in which a screen update was due, each pixel of both textures has the colour of the palette for what the program has drawn there, colour 0 of the foreground being transparent, whatever ran before: resizes, fills, sprites, palette changes. Redrawing never fails or leaves the textures.", "quantifier": "all programs and histories of runs and frames whose drawing keeps to the limits of C24, and whose palette is the one last announced through a low colour byte", "why_tests_cant": "ranges over all histories of drawing, resizing and redrawing with dirty rectangles", "anchors": ["src/gui.c:364-390", "src/gui.c:588-667", "src/devices/screen.c", "src/devices/system.c"]}
{"id": "C85", "title": "Starting and leaving a program", "statement": "A ROM smaller than the memory behind 0x100 is loaded whole at 0x100 however the reads cut it, all else in memory is kept, and the program runs from 0x100. The title is the first line of the metadata text and each icon extension gives the 24 by 24 picture of its nine sprites, both at the start and when a program writes System/metadata. A failing read or reads that fill memory refuse the ROM. The window closes at the next frame if the low seven bits of System/state are not zero.", "quantifier": "all ROMs, read sizes, memories and metadata", "why_tests_cant": "all cuts of all ROMs, all positions and contents of metadata", "anchors": ["src/gui.c:127-199", "src/gui.c:287-296", "src/gui.c:392-435", "src/gui.c:588-595"]}
{"id": "C86", "title": "Arguments and typed text", "statement": "After the reset vector the program gets every byte of every argument in order as one run of its console vector with type 2, a newline of type 3 between arguments and of type 4 at the end; in a frame it gets every byte read from the standard input in order with type 1 and the end of the input as type 4. Nothing else runs in between.", "quantifier": "all arguments, all cuts of the input, all programs", "why_tests_cant": "ranges over all programs reacting to all inputs", "anchors": ["src/gui.c:392-435", "src/gui.c:597-607", "src/devices/console.c"]}
{"id": "C87", "title": "The constants of the type checker are what the machine holds", "statement": "While the type checker and a machine go through the same code, every value the checker regards as a constant is what the machine has at this place of its working or return stack, for every opcode in every mode, with casts, through jumps and for the paths that are put aside at conditional jumps. This holds as long as the checker does not report an error, does not enter a routine with a signature, byte constants stay below 256 and no half of a short outlives the path that cut it; without the last two conditions it is false.", "quantifier": "all programs, all states the checker reaches on them, all states of the machine about which the checker is right, all devices that leave the stacks alone", "why_tests_cant": "ranges over every opcode in every mode, every abstract and concrete stack, both orders of evaluation", "anchors": ["src/asm/chess.c:585-730", "src/asm/chess.c:1290-1700", "src/asm/chess.c:1863-2062", "src/vm/exec.h"]}
{"id": "C88", "title": "Reported device writes are the writes of the machine", "statement": "For a DEO or DEO2 in any mode the type checker reports nothing of the write, or exactly the ports and the bytes that the machine writes, in the order of the machine; if all values on the stack are constants it reports the write.", "quantifier": "all programs, all states as in C87", "why_tests_cant": "all ports, all values, wrap-around of the port, all modes, all ways the operands came to be", "anchors": ["src/asm/chess.c:1468-1501", "src/vm/exec.h:165-177"]}
{"id": "C89", "title": "A signature means what the comment after the label says", "statement": "The comment after a label is taken as the signature of a routine exactly if its words are the inputs, an arrow, the outputs and possibly a closing mark, with at most eight names for each of the four stacks. The four lists then hold one value for each name, in order: a short if the name ends in a star, an address if it is in brackets, a nominal type if it starts with a capital. The arrow says whether the routine is a vector or returns. The analysis of the routine is scheduled with exactly the inputs on the stacks, above the return address if it returns, unless the mark says that it is to be trusted. A second signature for the same address is reported and ignored, and every other comment declares nothing.", "quantifier": "all comments, of any words of up to 255 bytes, all states of the reader behind a label", "why_tests_cant": "ranges over all sequences of words, including those that only fail at their last word, and all names", "anchors": ["src/asm/chess.c:2083-2325", "src/asm/chess.c:2556-2600", "doc/chess.md"]}
{"id": "C90", "title": "A cast means what the comment after the opcode says", "statement": "The comment after an opcode is taken as a cast of the results of this opcode exactly if its words are up to eight names, possibly a dot and up to eight more, and a closing mark. The cast then holds one value for each name, in order and on the right stack. A second cast for the same opcode is reported and ignored, and every other comment changes nothing.", "quantifier": "all comments, of any words of up to 255 bytes, all states of the reader behind an opcode", "why_tests_cant": "ranges over all sequences of words and all names", "anchors": ["src/asm/chess.c:2118-2161", "src/asm/chess.c:2327-2469", "doc/chess.md"]}
{"id": "C91", "title": "A vector of a passing program keeps its signature", "statement": "When a program passes the check, a vector of it behaves as its signature says on the machine, as long as it runs in the code of the program and does not enter another routine with a signature. It executes opcodes of the program text and never data. No instruction takes bytes from a stack that the vector has not put there or been given, no stack grows past 249 bytes, and when the vector ends, each stack holds exactly the number of bytes of the outputs of the signature. If the checker has followed every jump, the vector also ends: it executes fewer instructions than the analysis took steps. The code at 0100 is such a vector, with nothing before and nothing after. This needs three things of the analysis: its constants are in the range of their size and its halves belong to shorts that are still there, no path ends right before a cast, and a jump that the checker does not follow leads to a state that allows what the skipped one does. C59 and C87 show programs that pass and go wrong without them.", "quantifier": "all programs, all vectors, all states of the machine at the start, all devices that leave the stacks alone, all runs of any length", "why_tests_cant": "ranges over all programs that pass, over all inputs from devices and over runs without a bound, through loops and routines without a signature", "anchors": ["src/asm/chess.c:731-900", "src/asm/chess.c:1158-1290", "src/asm/chess.c:1927-2010", "src/asm/chess.c:2485-2555", "src/vm/vm.c", "doc/chess.md"]}
{"id": "C92", "title": "A call is checked against the signature of the routine", "statement": "Where a program calls a subroutine that has a signature, or goes over into a vector that has one, the checker compares the values on the stacks with the inputs, one by one. It warns if an address is asked for and the value is neither an address nor a constant. It reports an error if a routine is asked for and the value is none, or if a named type is asked for and the value is not of this type or of one whose name begins with it. It reports nothing else about them, and an error ends the path. Without an error the checker goes on behind the call, with the outputs of the signature in the place of the inputs and nothing else changed. If there are too few bytes on the stack, this is the only report. A subroutine that goes over into a vector is an error. A vector that does so ends there: the outputs of the other one, and what lies beneath, are compared with its own.", "quantifier": "all programs, all states the checker reaches in which the sizes it keeps are those of the values, all signatures without values on the return stack for calls and all signatures for vectors", "why_tests_cant": "ranges over all signatures, all combinations of values and types and all depths of the stacks", "anchors": ["src/asm/chess.c:725-853", "src/asm/chess.c:1080-1222", "doc/chess.md"]}
{"id": "C93", "title": "What a routine leaves is checked against its signature", "statement": "Where a subroutine returns to its caller, and where a vector ends with BRK, the checker compares what is on both stacks with the outputs of the signature, one by one. The rules are those for inputs, except that a value without a named type may be left where one is asked for. It reports nothing else about them, and the path ends. If there are more or fewer bytes than the outputs have, an error about the size is reported. A subroutine that ends with BRK is an error.", "quantifier": "all programs, all signatures, all states the checker reaches in which the sizes it keeps are those of the values", "why_tests_cant": "ranges over all signatures and all combinations of values and types on two stacks", "anchors": ["src/asm/chess.c:725-904", "src/asm/chess.c:1049-1078", "doc/chess.md"]}
{"id": "C94", "title": "The header that bindgen writes is C and means what the program says", "statement": "The text that buxn-bindgen prints, read by the rules of C, is one enumeration per annotated section, with exactly the constants of the section and their values, in order, and for every command block a struct with its members and two functions. For a command block whose members follow each other, the function that writes puts every value where the program has the member, high byte first, and changes nothing else, and the function that reads gives the values back. This needs that the names are names in C, that no two constants are the same in C, and that no section is empty; programs that assemble without error and violate each of these, and one whose functions use a constant that is not declared, are shown.", "quantifier": "all programs, all prefixes and suffixes, with and without include guard, all arguments without line breaks, all memories, addresses and values", "why_tests_cant": "ranges over all programs and names, and over all memories and values for the generated functions", "anchors": ["src/bindgen.c:163-263", "src/bindgen.c:332-450", "src/bindgen.c:473-521", "include/buxn/vm/vm.h:93-112"]}
{"id": "C95", "title": "The interactive assembler shows the bytes of the stack under the right names", "statement": "When the machine and the type checker have as many bytes on a stack, the printed table has one field for every value, from the bottom: its name above, and below it in lower-case hexadecimal exactly the one or two bytes of the machine's stack that belong to it; with names of one column per byte the bars are under each other. When the numbers of bytes differ, all bytes of the machine's stack are printed in order. A short with the name of one accented letter does not line up (shown).", "quantifier": "all stacks of at most 255 bytes, all names of up to 254 characters, all terminals (number of columns of a text)", "why_tests_cant": "ranges over all stacks and names", "anchors": ["src/repl.c:70-138", "src/asm/chess.c:286-353"]}
{"id": "C96", "title": "The next line of the interactive assembler is checked with what is on the stacks", "statement": "The signature that is made for the next line has the values of both stacks, in order, as words; read as the signature of a label it starts the analysis with values of the same sizes and kinds on both stacks. This needs at most eight values per stack, 255 characters, and names that do not look like shorts or addresses themselves: with nine values the text is no signature at all, and with two names of 150 letters it has one value (both shown).", "quantifier": "all stacks of up to eight values with names that fit, all states of the reader of symbols", "why_tests_cant": "ranges over all stacks and names", "anchors": ["src/repl.c:528-552", "src/asm/chess.c:311-353", "src/asm/chess.c:2120-2330"]}
{"id": "C97", "title": "The interactive assembler runs only lines that pass the check, and a line that is not run leaves the machine alone", "statement": "After every line either the stacks, the devices and the world are as before, memory differs only where the assembler put bytes, and nothing is printed; or the line was assembled, has something in it, and was checked without an error outside the prelude, and what is printed are the stacks of the machine at the end of the run, or everything is empty after a reset. The names of the values can be read for the line after the one that noted them. They cannot be read any more after a line that is empty or does not assemble, whatever comes next; a rejected line can change the stacks that the next one is checked with; and after nine values the next line is checked with an empty stack (all shown). What keeps a line from running is the number of errors outside of the prelude, and of routines there that do not end.", "quantifier": "all lines, all states of the tool, all devices, all files on the disk, all names", "why_tests_cant": "ranges over all lines and states; the memory of a reset arena still has the old names in most runs", "anchors": ["src/repl.c:140-241", "src/repl.c:455-475", "src/repl.c:580-660", "src/repl.tal"]}
{"id": "C98", "title": "A program reads from the ports of a device what the device has, and each event runs the vector of its own device", "statement": "DEI reads the stack pointers from ports 04 and 05, the character and its type from 12 and 17, the buttons and the key from 82 to 87, the state of the mouse from 96, the loudness of a voice from its meter; DEI2 reads the size of the screen (after a change that the program has asked for), the position and the sprite address from 22 to 2c, the position and the wheel of the mouse from 92 to 9c, the position of a voice at the time of its high byte, and the result of the last file operation. A size that the program asks for is taken, unless the product with its margins is over an int, which is a signed overflow. A frame, a mouse event, a button and a character of the console run the program at the address in the first two ports of pages 20, 90, 80 and 10, and nothing if a frame, mouse or controller vector is 0.", "quantifier": "all machines, all states of the devices, all four voices", "why_tests_cant": "ranges over all states of machine and devices", "anchors": ["src/devices/system.c:11-18", "src/devices/console.c:54-61", "src/devices/screen.c:101-131", "src/devices/screen.c:263-267", "src/devices/mouse.c:4-31", "src/devices/controller.c:4-27", "src/devices/audio.c:79-93", "src/devices/file.c:100-108", "src/gui.c:199-238", "src/gui.c:597-630"]}
{"id": "C99", "title": "The file device on PhysFS reads and writes the files of the host", "statement": "The functions of physfs.c keep the contract that the file device needs, so C19 to C24 hold for them. The first read of a regular file opens it under the name that the program gave, and each read delivers the next bytes of its contents, as many as were asked for or all that are left; a write adds exactly the bytes of memory that the device reports, and all of them if the library always takes some. ./name is name. Whatever a program does with the two devices, a directory that is opened always gets an entry of the table of two, never that of the other device, no list of names leaks, and nothing but an open directory is read. An open directory gives one line for each name in order, with the size of that name at the root of the mount, and a short read ends the listing. In other directories the sizes are wrong, and when PHYSFS_enumerateFiles fails, the next read goes through NULL (both shown).", "quantifier": "all libraries that keep the documentation of PhysFS, all programs and other devices, all interleavings of the two devices, all changes of the library in between", "why_tests_cant": "ranges over all interleavings and all states of the disk; failures of the library are hard to produce", "anchors": ["src/physfs.c:7-171", "src/devices/file.c:110-250"]}
{"id": "C100", "title": "The names of labels and macros are valid, and the names made up for anonymous labels never collide with them", "statement": "In every run of the assembler, successful or not, the symbol of a label or macro that the program defines carries a name that is not empty, does not begin with a rune, and is neither an opcode nor a number. The symbol of an anonymous label (a lambda or @@) carries @ and two to four lower case hexadecimal digits, the fewest from two on that denote its number, so it never has the name of a label or macro of the program, and different numbers give different names. But lambdas and @@ labels are numbered by two counters, so two anonymous labels at different addresses can have the same name (shown).", "quantifier": "all source files and includes, all runs, all numbers of 16 bits", "why_tests_cant": "ranges over all programs, including those that fail in the middle, and all numbers of labels", "anchors": ["src/asm/asm.c:785-838", "src/asm/asm.c:885-946", "src/asm/asm.c:1641-1712", "src/asm/asm.c:1990-2030"]}
{"id": "C101", "title": "What attaching a debugger does to a running program", "statement": "Without a debugger an update of the debugger does nothing. With one, an update runs the mouse vector with the hook installed exactly if the transport has something to read (a pause is then requested) or the client wants to be called: it has not let the program go, or some breakpoint is set; otherwise the hook is taken away. For a client that only looks, steps and sets breakpoints, the machine and the host go through exactly what they go through without a debugger, except that some updates run the mouse vector: none without a debugger, at least those with something to read with one. A client that let the program go, set no breakpoint and is quiet changes nothing. But a breakpoint that is never hit makes every update run the mouse vector, so debugging is not invisible (shown).", "quantifier": "all programs, hosts, clients that only look, sequences of updates, vectors and changes by the host, and answers of poll", "why_tests_cant": "ranges over all sessions of the program loop and everything a client can send", "anchors": ["src/dbg.c:4-39", "src/dbg/transports/fd.c:48-61", "src/gui.c:593", "src/gui.c:781-784", "src/gui.c:929-931", "src/devices/mouse.c:27-31"]}
{"id": "C102", "title": "What the graphical emulator makes of its command line", "statement": "Every command line is options followed by words, in exactly one way; two dashes or any word that is not an option end the options. For an emulator without an embedded ROM the last -log-level= that names a level and the last -scale= count, the first word names the ROM (boot.rom if there is none) and the other words go to the program. An executable made by rom2exe boots the embedded ROM with every word, even those that look like options, for the program. Either way the program is the whole ROM run from 0x100 with those arguments typed into its console, so the executable does exactly what the plain emulator does with the ROM in a file; a ROM that cannot be opened is reported and nothing runs. But on Windows a scale is taken for the name of the ROM, and an empty command line opens a null pointer (shown).", "quantifier": "all command lines, file systems, runners, ROMs that fit, hosts and programs", "why_tests_cant": "ranges over all command lines and file contents", "anchors": ["src/linux/platform.c:34-161", "src/linux/platform.c:207-217", "src/win32/platform.c:26-150", "src/gui.c:392-435", "src/gui.c:937-944", "src/bembd.h:49-84"]}
{"id": "C103", "title": "The strings of a symbol file stay inside the buffer they are read into", "statement": "A block taken from a temporary buffer is the first aligned place that is left, if it fits there, and the buffer goes on behind it. Strings of a symbol file that fit are stored one behind the other, each with its final zero, and nothing else in memory changes; the first that does not fit makes the file malformed and one that is cut off is an error of the stream, and nothing outside the buffer is written either way. This holds for every length that leaves the end of the string an address; the abstract reader of C37 and C38 takes exactly the strings stored. But a length near or above 2^63 in the file overflows the check or passes it, and the final zero is stored far outside the buffer (shown for every such length).", "quantifier": "all buffers, lists of strings, lengths of 64 bits and contents of memory", "why_tests_cant": "ranges over all files, including hostile ones, and all 64-bit lengths", "anchors": ["src/dbg/btmp_buf.h:7-37", "src/dbg/symtab.c:192-213", "src/dbg/symtab.c:395-406"]}
{"id": "C104", "title": "Interned strings", "statement": "The hash of a string reads exactly bytes of the string, has no undefined behaviour and is the 64-bit number that the description of the hash gives for the bytes. Interning a string that is in the pool returns its node and changes nothing; any other string gets the new block, with its characters and a zero behind the node, and nothing else is written. From then on, whatever the program does outside of the blocks, the characters stay, two nodes are the same exactly if their strings are, and a lookup finds a node exactly if the string was interned.", "quantifier": "all strings, seeds, contents of memory, blocks of the host and histories of the pool", "why_tests_cant": "ranges over all lengths and bytes and all histories, including all collisions of the hash", "anchors": ["src/asm/chibihash64.h:12-82", "src/asm/asm.c:720-760", "src/asm/hamt.h:28-49"]}
{"id": "C105", "title": "Unused labels and macros are warned about, and no others", "statement": "When assembly succeeds there is one warning about an unused name, and only one, exactly at the definition of each label or macro that nothing refers to (no label reference, no expansion, no padding to it), unless its name starts with a capital letter or it is a label at 0x100, where the program starts.", "quantifier": "all source files, includes and macros", "why_tests_cant": "ranges over all programs, with references before and after the definition, from macros, scopes and paddings", "anchors": ["src/asm/asm.c:1406-1438", "src/asm/asm.c:907-937", "src/asm/asm.c:1291-1350", "src/asm/asm.c:1787-1834", "src/asm/asm.c:2026-2072"]}
{"id": "C106", "title": "A report shows the line it is about and marks the reported part", "statement": "Under a report of the assembler about a part of one line, the excerpt is exactly that line of the source, and below it blanks (tabs below tabs) up to the reported part and then a caret and tildes that take exactly the columns of that part, also for characters of several bytes and columns. For every region of a source that is well-formed text something is printed and nothing outside the line is read. But if the first line of a file is empty, a report about the second one shows an empty line; and if the reported part starts with bytes that are not UTF-8 at the start of a line, the buffer is read before its start (both shown).", "quantifier": "all source files, runs of the assembler, regions, decoders and widths of characters", "why_tests_cant": "ranges over all texts, encodings, tabs and positions", "anchors": ["src/asm.c:175-256", "src/asm.c:258-297"]}
{"id": "C107", "title": "What the assembler leaves on the disk, and its exit code", "statement": "buxn-asm ends with code 0 exactly if the assembler succeeds, the type checker (if asked) is content and the ROM file (if wanted) could be opened, written and flushed; then the ROM file is exactly the memory that the assembler filled. If the assembler or the checker fails, the old ROM and debug files stay as they were; without a ROM name nothing on the disk changes; if nothing fails all three files are complete; every file that is opened is closed once. But a failed assembly overwrites the old .sym file with the labels up to the error, exit code 0 does not mean that the symbol files could be made, and a source that cannot be opened again for an excerpt makes the program close a null pointer before the ROM is written (all shown).", "quantifier": "all source files, hosts, disks, options and answers of the type checker", "why_tests_cant": "ranges over all programs and all combinations of failing files", "anchors": ["src/asm.c:483-517", "src/asm.c:637-734", "src/asm.c:163-173"]}
{"id": "C108", "title": "The command line of rom2exe and the runner it takes", "statement": "The last -runner= option counts (cli if there is none), -- ends the options, and anything but two remaining words is answered with the usage. Called by a path, buxn-rom2exe takes buxn-cli or buxn-gui from its own directory, or the given path, writes nothing if the runner is missing, and ends with code 0 exactly if runner, ROM and trailer fit on the disk; then the output, started under any name by which its file can be opened, boots exactly that ROM with all its arguments. But called by its bare name (found through PATH) with the runner cli or gui, it looks for the runner in the current directory and, even when everything has succeeded, frees a string constant at the end (shown). And an executable that the shell finds through PATH does not find its own ROM, because argv[0] is opened as a file of the current directory (shown).", "quantifier": "all program paths, command lines, file contents and disk sizes", "why_tests_cant": "ranges over all command lines and file systems; freeing a constant is undefined behaviour and may pass unnoticed", "anchors": ["src/rom2exe.c:19-78", "src/rom2exe.c:123-129", "src/cli.c:222-242", "src/linux/platform.c:112-162"]}
{"id": "C109", "title": "sym-view prints the labels of a .sym file", "statement": "sym-view prints for each entry of a complete .sym file one line with the address as four hexadecimal digits and the name, in the order of the file; so after every run of the assembler it prints exactly the labels that were announced. It ends exactly if the file is complete: on a file that is cut off inside an entry it prints for ever, and a file that does not exist is read through a null pointer (shown).", "quantifier": "all files, all sources, successful or not", "why_tests_cant": "ranges over all files; a test cannot show that a run never ends", "anchors": ["src/asm/sym-view.c:1-20", "src/asm.c:88-106"]}
{"id": "C110", "title": "What the interactive assembler reads from its user", "statement": "When a line of the interactive assembler is opened the user is asked once; the assembler then gets the characters typed and a line end. At the end of a line it gets a further line exactly if a bracket is open at that moment, and the prompt shows the number of open brackets in decimal; otherwise the text ends and nobody is asked. When the user ends the input the text ends for good and the program terminates. Every byte below 0xf5, so every UTF-8 text, arrives as itself. But where char is signed, a byte 0xff in an included file or typed line silently ends it, and 0xfe is taken for an error of the disk (shown).", "quantifier": "all typed lines, all depths of brackets at all calls, both kinds of char", "why_tests_cant": "interactive; ranges over all lines and interleavings with the assembler", "anchors": ["src/repl.c:36-70", "src/repl.c:313-449"]}
{"id": "C111", "title": "What the interactive assembler says about a line", "statement": "The user of the interactive assembler sees every error and warning of the assembler outside of the built-in prelude, in order, with file and line and the right level, and then, if the line was assembled, every warning of the type checker and its errors outside of the prelude. The number of errors of the checker on the screen is the number that decides: an assembled line is refused exactly if an error is shown, and no line is run with an error on the screen. A line that prints no stacks was refused with an error shown, asked for a reset, was empty, or failed only within the prelude. But in that last case the user sees nothing: a line such as `|0000` or `@\\reset` is refused without a message (shown).", "quantifier": "all lines, all states of the tool, all outcomes of the assembler and the checker", "why_tests_cant": "ranges over all programs typed and all paths of the checker", "anchors": ["src/repl.c:188-193", "src/repl.c:476-510", "src/repl.c:612-681"]}
{"id": "C112", "title": "The screen in the window, and the pixel under the pointer", "statement": "The GUI draws the screen into the window with its proportions kept, entirely inside, as large as possible, touching two opposite sides and centred but for less than two pixels. A pointer over a pixel of the picture is reported at that pixel; before the picture it is at 0, behind it at the width or height. The first screen fills the window with whole pixels, is no smaller than 512x320 in one direction and less than twice that in both. Dragging by touch moves the pointer by exactly twice the way of the finger in screen pixels, rounded down once, whatever the steps. With the option -scale the window is asked to have the scaled size rounded down. But in a window smaller than 512x320 in both directions the first size is a quotient by zero converted to int, and a scaled size of 65536 or more, or a negative scale, is an undefined conversion (shown).", "quantifier": "all sizes of window and screen, all positions of the pointer, all sequences of touch moves, all scales (exact arithmetic)", "why_tests_cant": "ranges over all pairs of sizes and all positions", "anchors": ["src/gui.c:304-326", "src/gui.c:528-532", "src/gui.c:706-755", "src/gui.c:816-828", "src/linux/platform.c:231-241"]}
{"id": "C113", "title": "The pace of the screen and the standard input of the GUI", "statement": "However the time is divided into frames, the screen vector of the GUI has been due once at the start and once for every full sixtieth of a second since; the screen is drawn in exactly the frames with an update, and every frame's loop of updates ends. A frame sends every byte that can be read from the standard input to the program, in order, and goes on when there is nothing more; at the end of the input, or when reading fails, the program is told the end; over any number of frames it gets bytes and then at most one end, and afterwards the input is not read again. But after a long break all missed updates run in one frame, without a limit; input that never pauses keeps the frame from being finished; and a read that fails once ends the input for good (shown).", "quantifier": "all sequences of frame times, all answers of poll and read, any number of frames", "why_tests_cant": "timing and arrival of input cannot be enumerated", "anchors": ["src/gui.c:565-566", "src/gui.c:596-632", "src/linux/platform.c:258-277"]}
