# Formal model of larsbs/id3v2lib in Rocq (Coq 8.16.1)

## What is modelled and how

The C functions of `src/` are total, computable Gallina functions with the C
name and a comment that cites their lines.  The exception is the version 1
`free_frame`, which only calls `free`.  Undefined behaviour is a value, not
an assumption: whatever can go wrong returns

    outcome A ::= Ok a | Ub kind | Exit code | NoFuel

`Ub` carries the kind: out-of-bounds read / write, use of an indeterminate
value, NULL dereference, bad size for memcpy / VLA / malloc, signed overflow,
type confusion (a struct used as another kind of struct), use after free, bad
free.  `Exit 1` is the library's own `exit(1)`.  `NoFuel` is returned by a loop
whose fuel ran out; theorems exclude it (C13 for parsing: it never happens).

Model:

| file | C source |
|---|---|
| `Base.v` | C semantics used below: bytes, cells, outcomes, int, mem*/str* functions |
| `Utils.v` | `src/modules/utils.c` |
| `Stream.v` | `src/modules/char_stream.c` |
| `Header.v` | `tag_header.c`, `frame_header.c` |
| `Frames.v` | `frames/*.c`, `frame.c` |
| `FrameList.v` | `frame_list.c`, lists as sequences of nodes |
| `Tag.v` | `tag.c` |
| `File.v` | `src/id3v2lib.c`, with the states of the disk in between |
| `Compat.v` | `src/id3v2lib.compat.c` |
| `FileFail.v` | `src/id3v2lib.c` and `load_tag` again, with opens, reads and writes that may fail |
| `Stdio.v` | the stdio calls (streams, positions, buffers, temporary files, failures at any call), and over them `src/id3v2lib.c`, `load_tag`, `set_tag`, `remove_tag`, `tag_set_album_cover` once more, call by call |
| `Threads.v` | the functions of `Stdio.v` as sequences of single stdio calls, and threads that take turns at them |
| `Shared.v` | the functions of `Heap.v` that use a tag as sequences of single accesses to memory, and threads that take turns at them on the same tag |
| `Tests.v` | the test programs (`test/`), as functions of the files they are run on |
| `TestUtils.v` | the functions of `test/test_utils.c` that print frames and save pictures |
| `Readme.v` | the example programs of `README.md` |
| `Platform.v` | the functions whose results depend on the machine once more, for any signedness of `char`, any byte order and a stack of any size |
| `Oom.v` | the functions that allocate once more, for an allocator that may refuse any request, with a log of the requests |
| `Calls.v` | names for the API calls that change a tag (`call`, `run_call`) |
| `Heap.v` | the constructors, lists, tag functions and all free functions again, on a heap of blocks with pointers |
| `Alias.v` | the calls with arguments once more, on `Heap.v`, with arguments that may point into blocks and are read where the code reads them |
| `HeapIO.v` | streams, reading, writing and `src/id3v2lib.c` again, on that heap |
| `CompatHeap.v` | `src/id3v2lib.compat.c` again, on that heap |
| `Program.v` | a client of the library: programs over any number of tags and files, on values and on the heap |
| `Race.v` | `src/id3v2lib.c` split at its calls of `fopen`, each part with a file of its own |
| `Cost.v` | the functions with loops once more, with a count of the rounds |

Specification.  It shares the data types and the basic notions of `Base.v`
(bytes, cells, lengths) with the model.  Of the model's functions it uses:
`SpecEdit.v` and `SpecCompat.v` name getters and setters in tables that say
which frame id each of them is about; `SpecHeap.v` uses `run_call` in
`node_leaks` to step from one call to the next (C45), and `SpecHeapIO.v` uses
`run_step` in `leaks` in the same way (C52), and `SpecMisuse.v` uses `run_call`
in `call_result` (C58), so these counts are relative to
the states of the model, which C25 ties to plain lists only for the histories
it covers.  `SpecSession.v`, `SpecLife.v`, `SpecSaves.v`, `SpecStack.v`, `SpecCopy.v`
and `SpecBig.v` write out sessions, copies and repeated saves and deletions as
sequences of API calls.

| file | contents |
|---|---|
| `Spec.v` | strings (ISO, UTF-16), frames and tags, and their byte images, from the ID3v2.3/2.4 layout |
| `SpecEdit.v` | edits as operations on a plain list of frames; which call means which edit; room |
| `SpecFile.v` | where the tag at the start of a file ends |
| `SpecFail.v` | what is seen of a file and what arrives in it when something fails |
| `SpecStdio.v` | streams left as they were, other files untouched, the disk at every moment of a call |
| `SpecThreads.v` | the files a program opens and changes, threads left alone, threads that make calls |
| `SpecShared.v` | data races; threads left alone; what a request on a tag is about, which requests are in conflict, and what the answer is |
| `SpecTests.v` | the frames the test programs look for and set, and what they leave out of their comparisons |
| `SpecPrint.v` | the line printed for a text, and the line there should be |
| `SpecReadme.v` | what the examples of `README.md` print and leave in the file |
| `SpecUnsync.v` | the unsynchronisation scheme of the ID3v2 documents, v2.3 and v2.4 tags that use it, what is taken for their frames |
| `SpecFlags.v` | the flags of the tag header, footers |
| `SpecAlias.v` | the call with copies of the strings its arguments point to |
| `SpecHole.v` | what a tag with a hole in its list holds, and every edit on it |
| `SpecTotal.v` | how saving any tag of well-formed frames ends |
| `SpecLaws.v` | tags that differ only in addresses |
| `SpecSaves.v` | headers that the next call finds again, sequences of saves and deletions |
| `SpecLife.v` | sequences of sessions and deletions of the tag, and how they end |
| `SpecRace.v` | how many bytes are taken for the tag of a file |
| `SpecStack.v` | what one tag is in a file of several; deleting several times |
| `SpecCopy.v` | copying and exchanging the tags of files |
| `SpecBig.v` | the bytes of tags of 2^28 bytes and more |
| `SpecBigRead.v` | what is seen of a frame that the recorded size of such a tag cuts off |
| `SpecCost.v` | numbers of rounds that the loops of a call make |
| `SpecBoth.v` | sessions with the version 1 interface among those with the new one, and how they end |
| `SpecStandard.v` | a reader of tags written from the ID3v2.3.0 and 2.4.0 documents, what frames are meant to say, and files of other programs |
| `SpecRewritten.v` | what becomes of one frame, for such a reader, when a tag is read and written again |
| `SpecPlatform.v` | how much stack a file needs while it is read; a tag with the bytes of all numbers reversed |
| `SpecOom.v` | what was refused; what may come of a call then: nothing defined, or a result that lacks what was refused |
| `SpecNeed.v` | allocators that hand out a given number of bytes; how many each call takes, from its result or from the frames |
| `SpecRead.v` | which frames and which tag a reader sees in any buffer, as grammar rules |
| `SpecRewrite.v` | frames that are cut off, frames whose size is read as it is written |
| `SpecCompat.v` | what a version 1 tag has to show |
| `SpecForeign.v` | the same for the files of other programs, whose last frame may be cut off |
| `SpecHeap.v` | which blocks make up a tag; what a call leaks; lists of pointers |
| `SpecHeapIO.v` | what reading and writing leave allocated; the state of a program |
| `SpecCompatHeap.v` | which blocks make up a version 1 tag; what each of its functions leaves of them |
| `SpecSession.v` | load, edit, save as one program; what the file has to hold afterwards |
| `SpecMisuse.v` | what freeing a frame does whose id stands for another kind of frame than it has |

`*Facts.v`, `Benign.v` and `Tidy.v` are lemmas; `Samples.v` holds concrete frames and
tags for the examples; `Props*.v` hold the theorems named after the
properties, each closed by a lemma, with `Print Assumptions`, and the
`Example`s that show that the hypotheses can be met.

### Representation decisions and simplifications

* A byte is Coq's `Byte.byte`; a memory cell is `option byte`, `None` meaning
  indeterminate (malloc'ed or automatic memory not yet written).  A `char*` is
  `option (list cell)`: NULL, or the cells from the pointer to the end of the
  object it points into.  Reading past the end is `Ub OobRead`; *inspecting* a
  `None` cell is `Ub UninitRead`; copying one is allowed.  Writing one to a
  file counts as inspecting it: what the file then holds is not determined.
* `int` is 32 bits, `unsigned` wraps mod 2^32, signed `+`/`-` overflow is
  `Ub IntOverflow`; conversions to `int` wrap (gcc/clang).  `char` is signed,
  the host little-endian, except in `Platform.v` (C64).
* `syncint_encode` shifts into the sign bit on every call, which ISO C leaves
  undefined (C47); everywhere else the model takes the wrapped result.
* A file is `option (list byte)` (`None`: does not exist).  Reading and writing
  never fail half-way, except in C35, which is about every intermediate state,
  and in C60, where opening may fail and reading and writing may stop anywhere.
  A short `fread` of one large item keeps the bytes that were read.
* Allocation succeeds unless the size is negative, except in `Oom.v` (C66), where
  every request may be refused.  There a request for no bytes is granted and
  copying nothing to NULL is allowed.  C67 counts all bytes that a call is handed
  out; what it frees before it ends is not given out again.  A VLA of a positive size
  is always available, except in `Platform.v` (C65), where the VLAs of a call
  may take a given number of bytes in all and nothing else on the stack counts.
* In `FrameList.v` and `Tag.v` a frame pointer is a number together with the
  frame; pointers are compared by the number.  `Heap.v` drops this: there
  every malloc'ed object is a block with an address, structs hold pointers,
  loops follow them, and using or freeing what is not allocated is an error.
  C41, C49, C50 and C51 prove that the two agree function by function, C52
  that whole programs do, C54 and C55 the same of the version 1 interface.  Addresses are never given out
  twice, so every use of a freed pointer is noticed.  The caller's strings are
  not blocks.
* `Stdio.v`: a file has one name (no links); `fread` and `fwrite` are repeated
  `getc` and `putc`, as ISO C defines them; a refused `fseek` leaves the position
  where it is, a refused write keeps some first bytes of what is pending and
  drops the rest, a refused `fclose` closes all the same; a refused read is an
  end of file; reading after writing without `fseek` is undefined.  Streams of
  the caller are left alone but their buffers are not written meanwhile.
* `Threads.v`: threads share nothing but the named files, because the library
  has no variables outside its functions and the tags are the threads' own;
  stdio calls are atomic; numbers of streams and temporary files are the
  thread's own.  In the general statement other processes are threads too.
* `Shared.v`: an access is to one member of one struct or to one whole string,
  in the order of the source text; malloc gives every thread addresses of its
  own and initialises the struct; what a thread passes in is its own.
  Saving is among the requests; its streams and its file are values of the
  thread (`HeapIO.v` has them as memory, `Threads.v` shares files).  Reading a
  tag makes a new one and shares none.
* `Tests.v`: a failed assertion is the outcome `Ok false`. Freeing, printing and
  removing the copies are left out. `clone_file` of a file that is not there is undefined.
* `TestUtils.v`: what is printed is what printf is given, and wide characters
  are their values; the host has little-endian numbers; files that are saved open and
  can be written.
* `Readme.v`: the examples do not compile; they are read with the type and
  function names that exist and with `frame->data->text`.
* `Race.v`: the contents of the file are given anew at every `fopen` of a call;
  nobody writes into a file while the library has it open (as when files are
  replaced by renaming). In `race` a process runs from one `fopen` to the next
  in one step; `C90_finer` shows what the finer steps of `Threads.v` add.
* `Cost.v`: time is counted in rounds of the loops over lists, frames and file
  characters (and characters seen by `strlen` in `ID3v2_to_unicode`).  Loops of
  at most four rounds, the search for the end of a UTF-16 string and the work of
  the C library (`memcpy`, `malloc`, `fread`, ...) are not counted.
* Not modelled: locales, signals, and anything outside `src/` and `test/` (CMake).

## Trusted base

* The Coq 8.16.1 kernel (and its VM, used by `vm_compute` in examples and in
  one closed side condition in `ExtFacts.v`).
* Axioms: none.  `Print Assumptions` under every theorem prints "Closed under
  the global context".  (The standard library modules that are loaded declare
  the `ssr` `Under_rel` axioms; no theorem uses them.)
* That `Base.v` … `CompatHeap.v` say what the C code does, as cited definition by
  definition; that the specification files say what the properties mean.

## Properties and method

| id | model and method |
|---|---|
| C01 C02 | `Utils.v`; induction over the string, every length (also those that overflow int) |
| C03 C04 C47 | `Utils.v`; bit masks turned into div/mod, then lia |
| C05 C06 C07 | `Header.v`, `File.v`; computation on a symbolic 10-byte buffer |
| C08-C11 | `Frames.v`; reader positions as splits of the buffer (`at_pos pre rest`) |
| C12 | `Tag.v`; induction over the frames |
| C13 | measure: the position strictly increases per accepted frame, for any buffer |
| C14 C15 C42 C43 | general parse lemmas for arbitrary frame bodies |
| C16 C17 | for every malformed shape, which undefined behaviour it meets |
| C18-C24 | `FrameList.v`, `Tag.v`; induction over the nodes |
| C25 C26 | simulation of call sequences by edits of plain lists |
| C27 C28 C29 | exact outcome of serialising, for every room; parse of the image |
| C30 | sizes of v2.4 frames; for every tag with a large frame, that it does not come back |
| C31-C37 C44 | `File.v`; the sequence of states of the disk |
| C38 | reading and writing with an extended header |
| C39 C40 | `Compat.v`; invariant `mirrored` between both lists |
| C41 C45 | `Heap.v`; the heap is a permutation of the blocks of the tag and the rest; simulation against `Tag.v` |
| C46 | the list of found frames is a second list of nodes over the same frames |
| C48 | which blocks survive a call, and that addresses are not reused |
| C49 C50 C51 | `HeapIO.v`; simulation against `Tag.v` and `File.v`, the stream being two more blocks |
| C52 | `Program.v`; the blocks of several tags side by side, one of them brought to the front per step |
| C53 | every successful parse is derived by the rules of `SpecRead.v` and the other way round; the rest is undefined; buffers with an indeterminate end included, hence every file |
| C54 C55 | `CompatHeap.v`; the blocks of the version 1 list beside those of the tag, node by node linked to its frames |
| C56 C57 | composition: reading (C12), edits (C25, C26, C40), writing (C27, C31) and reading again, for whole sessions with a file |
| C58 | frames whose data are of another kind than their id stands for: the free and write functions go by the first letter of the id (`frame.c:59-108`). `release` says what freeing any frame does; simulation of every call on any tag, without a condition on the tag; writing by cases on the frames. The heap outcome is undefined behaviour (`TypeConfusion`) when a struct of one type is accessed as another, which covers two effects of the C code: `free` of a pointer that is no block, and for ids of an unknown letter a `memcpy` of `size` bytes out of the (smaller) data struct |
| C59 | C53 for the file that is read; every frame the rules allow is one of `Spec.v`, or the last and cut off (`frames_seen`); then C25/C28 for the edits and the write; a cut frame among those written (`write_parts`) leaves an indeterminate byte in the stream or stops it. For the second rewriting the rules are applied to the bytes that were written |
| C60 | `FileFail.v`; the system's answers are a record of the call (which opens fail, how many bytes each file gives and holds); the functions then yield the states of the file up to their end or up to the undefined behaviour. Equal to `File.v` when nothing fails |
| C61 | C53 for the file that is read and C59 for what is written; the version 1 list is followed frame by frame as in C39 and C40, where a frame may now also be one that was cut off, of which the library writes a copy with indeterminate bytes (`cut_writes`) |
| C62 | `Stdio.v`; a system of named and temporary files, open streams, and a list of answers, one consumed by every stdio call (done, kept in the buffer, refused after so many bytes); every state of the disk is logged. Each stdio call is described for streams that are read and streams at the end of their file (`StdioFacts.v`), the functions are composed of them (`SysFacts.v`). Equal to `File.v` and `Compat.v` when nothing is refused, whatever is buffered |
| C63 | `Threads.v`; a program is a tree of stdio calls, shown to compute what `Stdio.v` computes (`C63_same`). Threads share the named files; a schedule says whose turn it is. A call depends on its thread's streams and files only; by induction on the schedule every thread is where it would be alone (`ThreadFacts.v`); that calls change no other files at any moment is C62 |
| C64 | `Platform.v`; every `_on P` function is compared with the model's: `char` enters only through `CharStream_getc` and is converted back or compared with 3, 4 and bit 6 (`PlatformFacts.v`); the byte order only through `itob`, whose effect on whole tags is computed as in C31 with reversed numbers (`PlatformWriteFacts.v`) |
| C65 | `Platform.v`; `SpecPlatform.v` adds to the grammar of C53 how many bytes of VLAs each frame takes. By induction on the grammar, reading on `P` is reading, unless the need exceeds the stack |
| C66 | `Oom.v`; most functions use what they get untested, so a compositional rule (`needs_all`) settles them (`OomFacts.v`); the four tested allocations need their own statements, and the loops of the parsers show that a list or the data of a frame may be missing only in two cases (`OomReadFacts.v`, `OomCallFacts.v`) |
| C67 | `Oom.v`, `SpecNeed.v`; a call is a function of the answers it gets (`steady`), so its log of requests when all are granted decides everything: an allocator with that many bytes grants all of them, one with fewer refuses one. The sum of the log is computed by inverting the run with all requests granted (`spends`), for the edits with C25/C28 for the frame that is made; the bound comes from the grammar of C53 (`NeedFacts.v`, `NeedReadFacts.v`, `NeedEditFacts.v`) |
| C68 | `Shared.v`; a program is a tree of accesses, shown to compute what `Heap.v` computes (`C68_same_*`, `SharedLikeFacts.v`). By induction on the schedule, as long as no two threads clash every thread is where it would be alone and memory is what the threads alone would leave; if two threads alone make clashing accesses, a schedule is built that brings both there (`SharedFacts.v`). The accesses of every request to the old blocks of the tag are computed along its list (`SharedWalkFacts.v`, `SharedTagFacts.v`, `SharedOpFacts.v`), and compared pairwise (`SharedTableFacts.v`) |
| C69 | `SpecStandard.v` is a reader that shares nothing with the code: it decodes texts to UTF-16 units, knows the four encodings, and takes v2.4 sizes as synchsafe numbers only. `StandardFacts.v`: it reads the frames of the library as what they are meant to say, and a frame that is cut off never says that (by counting bytes, so the "only if" for v2.4 holds). `StandardFileFacts.v` puts this after C31 and C56. Tags with unsynchronisation, an extended header or a footer are not covered; bodies of frames other than texts, comments and pictures are compared as bytes |
| C70 | As C69, with C59 for the reading: `sframe` is a frame with any encoding byte and anything behind its first text. A frame with bytes behind the second string of a comment is not covered here (C42 says how it is read). Text without terminator: no derivation of the reading grammar exists (`StandardOpenFacts.no_frames_read`), hence by C59 undefined |
| C71 | `Shared.v`: ID3v2_write_tag as a program (`write_tag_p`), whose streams, buffers and file are values of the thread; only the tag is shared memory. It computes what `File.v` computes, whatever the outcome (`SharedSaveFacts.v`). Its accesses to the tag: one write, of padding_size; reads of all nodes and frames. No other request touches padding_size (a syntactic check of the programs). The pairs with saving are then further rows of the table of C68, so C68_table and C68_no_conflict hold with saving as one more request |
| C72 | `Tests.v`, assertion_utils.c: each assertion always has an answer on a frame the library can make, and the answer is equality of frames, for pictures except the picture type, which no assertion compares (`TestFacts.v`). |
| C73 | get_test.c on any file, by the reading grammar of C42: it passes iff the first frames with the eleven ids are those of `song`. set_test.c on any tag of frames that survive a rewrite: the session of edits is that of C31, the length of the tag decides whether saving fits its buffer (C38), and what is read back decides the assertions. Frames that do not survive rewriting (v2.4 and 256 bytes or more, C30) are left out of the hypotheses, except large covers: those are seen with another size than asserted (`TestLargeFacts.v`, by the determinism of the reading grammar). |
| C74 | delete_test.c: the walk over the getters and deletions is computed on the frame list; it passes iff the frame ids are a permutation of the deleted ones, with at most one comment, and no second tag follows; if a frame is left, the file that is written shows one, whatever it is read as, and the size assertion fails. |
| C75 | compat_test.c through the version 1 model (`Compat.v`), by C33 and the rewriting of C59. |
| C76 | main_test.c: the conjunction of C73-C75, simplified: the first-frame conditions and the id conditions together say that the frames are a permutation of `song`. Of such a tag all frames survive a rewrite but the covers, in v2.4. |
| C77 | test_utils.c, printing: a text is handed to printf as it is stored, and UTF-16 units in the byte order of the host whatever the mark says; for every file and every getter the line of the first such frame, or "None" (`PrintFacts.v`). The conversion to UTF-16 there is the one of the library. |
| C78 | test_utils.c, `save_apic_frame`: the buffer of the name has no room for its terminator, so no run with a picture is defined. |
| C79 | README.md, reading: shown is the first frame with the id, up to the first zero byte; without such a frame, or without a tag, NULL is dereferenced (`ReadmeFacts.v`). |
| C80 | README.md, setting: C59 for the two edits of the example, with the room they need; the example for new frames never writes. |
| C81 | README.md, deleting: the list with or without a hole at its end (C24, `TestDeleteFacts.v`) followed through both deletions, for every list of frames. |
| C82 | Unsynchronised tags: the scheme is written down from the ID3v2 documents and shown to be one (it has an inverse, no false synchronisation is left). The tags that use it are then read by the grammar of C53 (`UnsyncFacts.v`). Byte FF is assumed only where it usually stands: the mark of UTF-16 texts, picture and other data. v2.3: the first UTF-16 text with a little-endian mark, whatever is behind it. |
| C83 | Flags: the reading grammar of C53 does not mention the flags but for the extended header, so it reads the same frames with other flags (`FlagsFacts.v`); writing by C59 for both files. Footers: they are sound to the library, so C59 and C33 say what becomes of them. |
| C84 | Aliasing: between the call and the last read of an argument the functions only allocate, and link nodes of a new list; neither changes an array of characters (`AliasFacts.v`). So the outcome, with its heap, is that of the same call with copies; C41 and C45 then say what it is. Assumed: a frame's data is made from its arguments before its blocks are allocated (the code allocates first, then copies). |
| C85 | Any edits: the list of a tag is frames, or frames, an entry without a frame, and more frames; each function of `FrameList.v` is run on such a list (`HoleFacts.v`). There is never a second hole, since only the last entry of a list is emptied. C25 is the case where no hole arises. Sizes are those of C26. |
| C86 | Any session: C85 gives the tag after the edits; `Tag_to_char_stream` is run on it in each of four cases (no hole, nothing before the hole, frames before it, no room) (`TotalFacts.v`). C56 is the case of edits that leave no hole. `TotalFileFacts.v` does the same for any file that C53 says can be read |
| C87 | Laws: from C25 and C85 and equations between the list operations of `SpecEdit.v` (`LawFacts.v`); that serialising depends on no address is proved on `Tag_to_char_stream` itself |
| C88 | What `ID3v2_write_tag` computes before it opens the file is split off as a function of the tag alone, with any frames, well formed or not (`SavesFacts.v`); that the bytes begin with the header and are as long as it says follows from `CharStream_write` never going back. So the file that a save leaves has the same sound behind an honest header, and by induction over the calls only the last one counts. Long, foreign and extended headers are treated separately: there the statement is false, and it is said what happens instead |
| C89 | Induction over the steps. Each session is C86 with the additional invariant that every frame held survives being written and read; that the recorded size neither passes 2^28 nor comes back by wrapping round 2^32 follows from a count of bytes over all frames held, seen or behind a hole (`LifeFacts.v`) |
| C90 | The functions are split at their calls of `fopen` and each part is given a file of its own; with one file they are the functions of the other claims (`C90_alone`). With two files the parts are C53 and `tag_output` of C88. The race is an invariant over the schedule: every file that occurs has a tag of the same length before the same sound, so whatever was looked at, the right number of bytes is skipped (`RaceFacts.v`). `C90_lengths` and `C90_finer` show what goes wrong otherwise |
| C91 | A version 1 session is shown to be the session of the new interface with the same frames, or to dereference NULL (simulation through `mirrors` of C39); then C89 step by step, with a bound on how much one step lets the recorded size grow (`BothFacts.v`) |
| C92 | The functions are written once more with a count of the rounds of their loops (`Cost.v`); erasing the count gives the ordinary functions; the counts are computed by induction over the lists, for edits through `means` as in C18-C26 (`CostFacts.v`) |
| C93 | The header, and so every offset, depends on the first ten bytes only; the bytes behind the first tag are carried through reading and writing unexamined; repeated deletion by induction on the length of the file (`StackFacts.v`) |
| C94 | Header, audio and the parts of each frame are split off by their lengths, no frame begins like padding, and a body gives its frame because the reader is a function (a frame too short to be read is first made one byte longer); the converse because a frame is written from its struct only (`FaithFacts.v`) |
| C95 | What is written in front is computed from the tag alone before the file is looked at again; reading what was written gives a tag that is written as the same bytes (`CopyFacts.v`) |
| C96 | The closed form of `syncint_encode` (C03) for all sizes whose buffer can be allocated; the size bytes stand for the size modulo 2^29, which is where the tag ends for the reader; repeated saves by induction. Shifts wrap as in compiled code (C47). Reading is stated for v2.3 and for frames within the recorded size (`BigFacts.v`) |
| C97 | The first 10 + (n mod 2^29) bytes of the file are what the reader gets; where they end in the list of frames is a case distinction (`C97_cases`). Between frames and within pictures the grammar of C53 gives what is read; within texts it has no derivation, since no text is a proper prefix of another, so reading is undefined. v2.3 only: in v2.4 the library misreads the sizes of large frames (C30). The variable-length arrays are taken to fit on the stack, as elsewhere, except in `C97_stack`, which says with the rules of C65 how much the cut frame needs (`BigReadFacts.v`, `BigStackFacts.v`) |

Properties that the code violates are stated as what the code does (an exact
characterisation, usually "if and only if") so that they can be proved; the
offending behaviour is described in the property text.

Statements that the proofs showed to be wrong or too weak, and were changed
(the history of `properties.jsonl` has both versions):

* C16 said that every frame cut off inside the frame header is undefined
  behaviour.  That is false for frames of an unknown kind cut off after 8 or 9
  bytes, which are accepted with indeterminate flags.  The statement is now
  limited accordingly, and C43 covers these frames.  The condition for text
  frames became "if and only if", and unterminated comments and pictures were added.
* C30 gave 128 as the limit for frame sizes; the true limit is 256.  It also
  said that all larger frames are not read back as written; comments are,
  because their size is not used (C42).
* C38 said that frames behind an extended header are in general not found; it
  now says what is read instead.
* C36 limited the change of `padding_size` to values below 2048 and left out
  the overflow for very negative ones.
* C41 said that `ID3v2_Tag_free` releases every frame; it does not release the
  structs of frames of an unknown kind.
* C67 did not say that a call that is granted everything asks for no more than
  the stated number of bytes.
* C02, C31, C32, C39 and C40 were made more precise or extended.

## Mutation testing

`seeded/LOG.jsonl` has one line per edit of the model in a scratch copy.  The
copy is rebuilt; each lemma whose proof stops is admitted there, so that the
rest can be built, and a theorem counts as failed (`theorems_failed`) when
`Print Assumptions` then shows that it rests on such a lemma.  This tells that
its proof no longer goes through.  It does not by itself tell that its
statement became false: proofs also stop when the text of a definition changes
without changing the function (the line for `clamp_int` is such a control).
`examples_failed` is stronger evidence: these are computed on concrete inputs.
What counts against a theorem is the opposite case, an edit that falsifies its
claim while it still proves; `theorems_tightened` names what was added then.
`revision` is the commit whose model was edited.
