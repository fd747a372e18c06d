# Formal model of passwd-manager in Rocq (Coq 8.16.1)

The C++ source in `/repo` was read as text. It was not compiled and not run. Line numbers in comments refer to that tree.
`properties.jsonl` lists the properties, `MANIFEST.json` gives the theorems of each one, `seeded/LOG.jsonl` lists
deliberately wrong versions of the model and which theorems fail on them.
In that log a theorem counts as failed if its proof, or the proof of a lemma it uses, no longer compiles; this was not
followed up by a proof that the theorem is false for the wrong version. Many runs stopped at the first property file in
which a theorem failed, so `theorems_failed` need not name all of them.

## 1. Layout (rocq/theories)

| model (code as it is) | specification (what it should be) | lemmas | property theorems |
|---|---|---|---|
| `Base` bytes, machine integers, outcomes | | `BaseFacts` | |
| `BytesModel` class Bytes, by value | `BytesSpec` | `BytesFacts`, `BytesFacts2` | `Properties_Bytes` C45-C48 |
| `HeapModel` class Bytes, by pointer | `HeapSpec` | `HeapFacts` | `Properties_Heap` C49 |
| `CipherModel` SaltIterator, Block*, BlockChain*, enc_stream | `CipherSpec`, `CipherSpec2` | `CipherFacts`-`CipherFacts3` | `Properties_Cipher` C01-C09, C54 |
| `MiscModel` utility, rng, timer, ErrorStruct | `MiscSpec` | `MiscFacts` | `Properties_Misc` C50-C53, C55, C57 |
| `PwModel` PwFunc | `PwSpec` | `PwFacts` | `Properties_Pw` C10-C13, C15, C29 |
| `ChModel` Format, ChainHashData, ChainHash(Timed), ChainHashModes | `ChSpec` | `ChFacts`, `ChFacts2` | `Properties_Ch` C14, C16-C19, C58, C59 |
| `HeaderModel` DataHeader, parts, settings, data blocks, encoder, both decoders | `HeaderSpec` | `HeaderFacts` .. `HeaderFacts11` | `Properties_Header` C20-C28, C56 |
| `FileModel` FileHandler, file system, circumstances (`world`) | in `ApiSpec` | `FileFacts`, `FileFacts2` | `Properties_File` C30-C32 |
| `ApiModel` API and its seven state classes | `ApiSpec` | `ApiFacts` .. `ApiFacts9` | `Properties_Api` C14, C27, C33-C44 |
| | `ApiSpec2` | `ApiFacts10` .. `ApiFacts12` | `Properties_Api2` C60, C64-C68 |
| | `SecSpec` attackers | `SecFacts` | `Properties_Sec` C61-C63 |
| | `TrimSpec` cutting, lengthening and patching a file by its clear bytes | `TrimFacts` | `Properties_Trim` C116 |
| | `RefSpec` reference reader, `RefSpec2` reference machine | `RefFacts` .. `RefFacts5` | `Properties_Ref` C69-C73 |
| | `RndSpec` failing random generator | `RndFacts`, `RndFacts2` | `Properties_Rnd` C74 |
| | `SysSpec` several objects, dying processes | `SysFacts`, `EmptyFacts` | `Properties_Sys` C77-C79 |
| `TextModel` error messages, mode texts, default directory | `TextSpec` | `TextFacts` | `Properties_Text` C76, C80, C81 |
| `PwDataModel` PasswordData (not in the build) | `PwDataSpec` | `PwDataFacts` | `Properties_PwData` C82-C84 |
| `AppModel` console questions (not in the build) | `AppSpec` | `AppFacts` | `Properties_App` C85 |
| `PtrModel` pointer arguments of Bytes and RNG, numbers of any sign | statements in `Properties_Ptr` | `PtrFacts` | `Properties_Ptr` C86 |
| `EnumModel` the header functions with checked enum conversions | `EnumSpec`, `HeaderSpec` | `EnumFacts` | `Properties_Enum` C87 |
| `InterModel` the calls that use files, with other processes acting before each access | `InterSpec`, `ApiSpec`, `SecSpec` | `StreamFacts`, `InterFacts`, `InterFacts2-4` | `Properties_Inter` C88 |
| `InterModel` a save, with another process that copies the file before one access | `TornSpec`, `InterSpec` | `TornFacts` | `Properties_Torn` C38 |
| `FaultModel` the calls that read files, with streams that fail | `FaultSpec`, `ApiSpec` | `FaultFacts` | `Properties_Fault` C89 |
| (`HeaderModel`, `ChModel`, `BytesModel`) | `ObjSpec` | `ObjFacts` | `Properties_Obj` C90 |
| `ResultModel` (kept ErrorStructs, data pointers) | `ResultSpec` | `ResultFacts` | `Properties_Result` C91 |
| - (uses `ApiModel`) | `TraceSpec` | `TraceFacts` | `Properties_Trace` C92 |
| - (uses `ApiModel`) | `LeakSpec` | `LeakFacts` | `Properties_Leak` C93 |
| `HandlerModel` every call on a FileHandler, with the members after an exception | `HandlerSpec` | `HandlerFacts` | `Properties_Handler` C94 |
| `WorkModel` verifyPassword and createDataHeader with a record of the digests and clock readings | `WorkSpec` | `WorkFacts`, `WorkFacts2` | `Properties_Work` C95 |
| - (uses `ApiModel`, `WorkModel`) | `TamperSpec` | `TamperFacts` | `Properties_Tamper` C96 |
| `LogModel` | `LogSpec`, `LogSpec2`, `LogSpec3`, `LogSpec4` | `LogFacts1`-`LogFacts15` | `Properties_Log` C97, C98, `Properties_Log2` C98 |
| `LifeModel` | `LifeSpec` | `LifeFacts1`-`LifeFacts8` | `Properties_Life` C99 |
| `MsgModel` | `MsgSpec` | `MsgFacts1`-`MsgFacts4` | `Properties_Msg` C100 |
| `CworkModel` getDecryptedData and encryptData with a record of the digests | `CworkSpec` | `CworkFacts1`-`CworkFacts4` | `Properties_Cwork` C101 |
| `OrderModel` the functions that depend on the byte order, with the order as a parameter | `OrderSpec` | `OrderFacts`-`OrderFacts3` | `Properties_Order` C102 |
| `HeapModel` and `LifeModel` with the contents of the arrays given back | `HeapSpec2`, `LifeSpec` | `HeapFacts2`, `LifeFacts9` | `Properties_Left` C103 |
| `HeapModel2` class Bytes when allocations fail | `HeapSpec2` | `HeapFacts3` | `Properties_Oom` C104 |
| `MiscModel` RNG | `CountSpec` number of lists with a property | `CountFacts`, `CountFacts2` | `Properties_Count` C105 |
| `ApiSpec` key_of, opens, plain_of (what the API computes) | `QuerySpec` programs that ask for digests | `QueryFacts`-`QueryFacts6` | `Properties_Query` C106-C108 |
| `ApiModel`, several objects (C77) | `StolenSpec` reading with the password hash alone | `StolenFacts` | `Properties_Stolen` C109 |
| `ApiModel`, several objects (C77) | `DocSpec` the documented salt and cipher | `DocFacts` | `Properties_Doc` C110 |
| `EqModel`: operator!= of Bytes, operator== of TimedResult; the others in `BytesModel`, `ChModel` | `ChSpec` parts of data objects | `EqFacts` | `Properties_Eq` C111 |
| `TimeModel`: _createDataHeaderTime from line 142 on | `TimeSpec` settings with run times, a clock that runs out | `TimeFacts` | `Properties_Time` C112 |
| (as for C33-C44) | `EditSpec` sittings: open, change, save, log out | `EditFacts` | `Properties_Edit` C113 |
| (as for C33-C44) | `SaltSpec` draws, repetitions, falling factorial | `SaltFacts` | `Properties_Salt` C114 |
| (as for C29, C33-C44) | `CountSpec`, `QuerySpec`, `PwSpec` | `PolicyFacts` | `Properties_Policy` C115 |
| `DecModel` WorkflowDecStruct, the rest of FileDataStruct | `DecSpec` | `DecFacts` | `Properties_Dec` C117 |
| (`HeaderModel`) | `MemSpec` a reader of buffers | `MemFacts`, `MemFacts2` | `Properties_Mem` C118 |
| (`ApiModel`) | `CodeSpec` the codes of each function | `CodeFacts`, `CodeFacts2` witnesses | `Properties_Code` C119 |
| (`ApiModel`) | (`ApiSpec`) | `LimitFacts` | `Properties_Limit` C120 |
| (`ApiModel`) | `BuildSpec`: the same call in the other build, files with a wrong length | `BuildFacts` | `Properties_Build` C121 |
| (`MsgModel`) | `LackSpec`: a file that is a header up to a field and ends in it; the table of the fields and a header cut after a byte | `LackFacts`, `LackFacts2` | `Properties_Lack` C122 |
| (`BytesModel`) | `StrSpec`: a sequence of additions, the strings that fit | `StrFacts` | `Properties_Str` C123 |
| (`HeaderModel`) | `CanonSpec`: admissible length bytes | `CanonFacts` | `Properties_Canon` C124 |
| `Sha2` SHA-256, SHA-384, SHA-512 after FIPS 180-4 | in `HeaderSpec` | `ShaFacts` | `Properties_Sha` C75 |
| `Toy` a computable digest, used in Examples only | | | |
| `TestLib`, `Tests_*`: the project's own unit tests, run on the model | | | |

A `*Model` file contains no proof. A `*Spec` file says what should hold in terms of plain lists and numbers. A `Properties_*`
file contains the property theorems, each closed by `exact lemma`, with `Print Assumptions` and an Example beneath.

## 2. Conventions

* A C++ call is a function into `outcome`: `Ret`, `Throw e`, `Crash (Terminate | AssertFail | Undefined)`, or `OutOfFuel`.
  `noexcept` turns `Throw` into `Crash Terminate`. Undefined behaviour is the outcome `Crash Undefined`, never assumed away.
* Asserts are live in the Debug build (build_all.sh) and compiled out in the Release build (install.sh). The build is a
  parameter (`w_build`, `bld`), and theorems hold for both unless they name one.
* A byte is Coq's `byte`. Sizes and integers are `N`. Wrap-around is written out (`w8 w16 w32 w64 sub64 to_int32`).
* Loops that need not end are fuelled. `OutOfFuel` is a separate outcome, so a theorem about a returned value says nothing
  about it. Statements "never returns" are "out of fuel for every fuel"; statements "returns" give a fuel or hold for all.
* Digest functions are parameters. Their output length (32, 48, 64) is the only hypothesis about them.
* Random bytes, clock readings, file permissions, disk space and directory contents are arbitrary functions in `world`.
  The clock need not be monotonic.
* An API history (`history`) starts with the constructor. It allows any calls in any order, with a different `world` for each
  call, and any change of the files by others between two calls.

## 3. How each property is modelled and proved

| property | modelled | proof |
|---|---|---|
| C01-C05, C09 | chains with the capacities and exceptions of the code | induction on the chunks with a chain invariant; refinement of a keystream on lists; round trip by induction on blocks |
| C06 | constructors | case analysis |
| C07 | the narrowing to `int` in addData | induction on fuel |
| C08 | getHeight, getDataSize | invariant over histories |
| C10-C13, C15 | the loops of PwFunc with any clock | induction on the iteration count |
| C14 | performChainHash (timed), which has no `break`; createDataHeader with time settings | case analysis |
| C16-C19, C58, C59 | chain data and chain hash objects, shared data pointers | invariants over call histories |
| C20, C23, C24, C27 | header objects and their setters | invariant over setter histories; arithmetic on the layout |
| C21, C22, C25, C26 | encoder, stream decoder, buffer decoder, field by field | one symbolic-execution lemma per field, induction on block lists; refuting files by computation |
| C28, C56 | encrypted data blocks, settings | case analysis, invariant |
| C29, C52 | character checks | decision procedure equals declarative specification |
| C30-C32, C55 | file handler, readData | case analysis; induction on the rounds of readData |
| C33-C44 | step function of the API; for C38 also the calls of C88, access by access | invariant over histories; composition of C01, C10 and C21; for C38 induction on the pieces of a save, copied before any access |
| C45-C48 | Bytes by value | algebra, refinement of bounded lists |
| C49 | Bytes by pointer, with uninitialised, freed and foreign memory | invariant relating heap and values; refuting histories |
| C50, C51, C53, C57 | small state machines | invariants |
| C54 | enc_stream | direct |
| C60, C64-C68 | API in unusual circumstances | history invariant and exact outcome of each call |
| C61 | both chain hashes of a password check | induction on rounds, the colliding round is explicit |
| C62, C63 | cipher and headers of several files | keystream equations |
| C116 | cipher, headers and `step` of the API | the cipher of a prefix is a prefix of the cipher; the size field is rewritten from clear bytes; the altered file is again a sealed file, which opens by the lemma behind C36 |
| C69, C73 | stream decoder | refinement: equal to a reference reader for every file content |
| C70 | API | simulation: every history runs in step with a machine on plain values |
| C74 | failures of the random generator in every call | case analysis of each call against the same call with a working generator, then C70 |
| C75 | the three digest functions meant by the code | length of the output words |
| C77, C78 | several API objects on the same files, each of which may die in any call | induction on the interleaving: each object has a history (`history`), each file is the effect of the last call on it |
| C79 | empty data blocks through encoder and decoder | exact outcome of the decoder on the written bytes |
| C76, C81 | mode texts, endsWith, getEncDirPath | case analysis; decimal numbers by induction |
| C80 | getErrorMessage | each message split into text, details, text; all pairs of texts compared by computation, lifted to all details |
| C82 | PasswordData with any iteration order of its hash map and any sort | invariant over call sequences: same passwords for each site; then permutations |
| C83, C84 | saving and loading, undefined behaviour as an outcome | exact outcome by case analysis, C83 on top of the invariant of C82 |
| C85 | checks and loops over the input lines | decision procedure equals declarative specification; induction on the lines and on fuel |
| C86 | pointer or null with the readable bytes behind it; 64-bit sums and sign conversions | case analysis, modular arithmetic |
| C87 | both decoders and the encrypted block once more with `Crash Undefined` for a value outside of the enumeration | simulation of the ordinary decoder, induction on the blocks |
| C88 | every call that uses files once more as a sequence of single accesses, an arbitrary function changing the files before each; a save is written in pieces of arbitrary sizes | equal to `step` where nobody interferes; invariants of the accesses; the decoder as a function of measured size and delivered bytes; witnesses for what gets lost or mixed |
| C89 | every call that reads files once more with streams that report positions and deliver bytes independently of the file | equal to `step` for sound streams; readers of a prefix of the bytes give the same result or an error |
| C90 | nothing new: the setters and getters of the header objects as they are | refinement: a sheet of plain values (DataHeader) and the list of earlier calls (DataHeaderParts) predict the answer of every call of every sequence, including which exception; one case, a changed hash mode, refuted |
| C91 | a program with an API object and all results it got; what encryptData leaves in its argument | refinement: slips that follow from the events alone predict every access; at most one giving event by induction on the program |
| C92 | nothing new; the essential calls of a history, the replies and files of any later calls | bisimulation: objects that differ only in members that are overwritten before they are read answer alike; failed calls lead to such an object |
| C93 | nothing new; functions of file contents only: reading another file with an old check value, replacing a file, zeroing a salt | the unsalted chain hash is iteration of the digest, so rounds add up; sessions by the read-back and session lemmas of C30-C36 |
| C94 | the calls of one handler with the members update() leaves when it throws; the stream to write is taken, written and closed in one step | invariant: the members are functions of the calls so far; consequences from it, one statement refuted by a witness |
| C95 | the same functions once more, in a writer monad that records each digest (with its input) and each timer reading; the projection to the results is proved equal to the model of C33-C46; digests of the cipher are recorded in C101, those of createDataHeaderTime are not | event list = closed form by induction on the rounds; counts, pace and order from the closed form; one statement refuted by a witness |
| C96 | attackers as functions of file contents, as for C93; no new model | the reader of C69 on sealed files; backwards induction over the rounds of two checks |
| C97 | `LogModel`: copies of the functions of the API object that also collect the log lines, each with severity, source line and inserted values; `LogFacts1` proves that they return what the model without log returns | a relational proof over two executions for what is not shown; inversion of the copies for what is; the guess is a computation on the lines |
| C98 | `LogModel` | cases over the places where a function of the API object fails; for success the reference log of C97; for modes that do not exist evaluation of the reader up to the mode; for refused paths and wrong sizes the cases of the checks |
| C99 | `LifeModel`: objects, state objects and key arrays with addresses over `step` of `ApiModel` | refinement: the memory holds one `api` per living object (induction over the program); for moved objects an invariant about the state object that points to the old one |
| C100 | `MsgModel`: copies of the failing functions that also carry errorInfo and what; `MsgFacts1` proves that they fail exactly when the model without texts does, with the same codes | a Hoare-style predicate on failures pushed through the copies; the reader of C69 for the codes of damaged files |
| C101 | the cipher and the two calls once more in the writer monad of C95, the projection to the results proved equal to `ApiModel`; the attack is a small program in `CworkSpec` that records its own digests | the record is a closed form by induction on the rounds of the loops; the number by arithmetic; the first block of the decryption is what the attack computes |
| C102 | `fromLong`, `toLong` and their callers in dataheader.cpp, filehandler.cpp, chainhash_modes.cpp and rng.cpp with the byte order as a parameter; proved equal to the other models for the order these fix | the writer and the forward direction of the decoder once more for any order; no size below 4311744512 equals its reversal by arithmetic on its bytes. Not covered: the in-memory decoder and the timed chain hashes on the other order |
| C103 | `h_freed` and `m_left` record what an array contains when it is deleted; no function of the models reads them. Only the password hash that is a member of the API object is followed at the level of the API (its copies and the texts in std::string are not), and not the array of length 0 of an object whose constructor throws | the simulation of C49 carried on to the deleted arrays; for the API an invariant of every step (an array in memory keeps its content or is given back with it) on top of C99 |
| C104 | every operation of `HeapModel` with the answer whether `new` succeeds; std::string does not run out of memory | refinement as in C49 for the operations that survive; an invariant `one object owns an array that is gone` for those after a failed assignment |
| C105 | `MiscModel` as it is; probabilities are counted: `number n P k` says that k of the lists of n bytes have P | get_random_byte: the answers for a value are an arithmetic progression; get_random_string: counting by the first byte, two recursions and a bound by induction on the buffers |
| C106 | `program`: a tree of questions to the digest function; `decides`, `computes_key` quantify over all digest functions; that the API computes the same values is C33, C95 and C101 | adversary argument: if a text of the chain is not asked for, another digest function gives the same answers to everything that was asked and leads the chain to any value one likes; the room for this is found by counting |
| C107 | the same programs, for the question whether the decrypted data begin with given bytes; the attack of C101 written as a program | the same argument, one fresh digest after the other, for texts that are injective in the last digest |
| C108 | the same programs; `sealed` of `ApiSpec` for the file | the digest function is rebuilt step by step on new texts: the first chain hash leads to a new key, the second to the validator of the header, and the three digests of each block to the pad that turns the data into the given bytes; each choice keeps the next texts new, which is where the exceptions come from |
| C109 | the system of objects of C77; the program `thief` is written in `StolenSpec` from the cipher and the reference reader of C69 | invariant over the runs of the system: every readable header in a file and every header in use stems from a first header by new salts; a save that was cut off cannot be read (C38), an unbroken one has one header only |
| C110 | the system of objects of C77; the documented salt and cipher are written in `DocSpec` from README.md, docs/doc.md and docs/dataheader.md | invariant over the runs of the system: the salt of every readable header and of every header in use was there at the beginning or was drawn; the documented cipher by bytewise arithmetic; a refutation by a witness |
| C111 | `eqBytes`, `neqBytes`, `eqTimed`, `format_eqb`, `cd_eqb` | refinement of data objects to lists of parts (C17); the parts of one mode can be told from their bytes, since only the last can have any length; refutations by witnesses |
| C112 | `newChainsTimed`, `headerTimeRest` | calculation to the first timed chain hash, then C14; the settings are in range by C56 |
| C113 | `step` of the API | induction on the list of sittings; one sitting from the lemmas of C36, C41 and C42; the content of a file is a function of header, password and data |
| C114 | `step` of the API, generator as oracle | counting lists by induction on the number of draws; the header after each sitting by induction on the sittings |
| C115 | `isPasswordValid`, `step` of the API | counting lists by induction on their length; the bound of C106 for the list of all admitted passwords; case analysis of createDataHeader |
| C117 | any number of structs as a store, with moves | ownership of addresses as an invariant of all programs; what a struct holds by induction on the calls since it was made |
| C118 | the decoder of buffers against a reader of byte strings with 16-bit positions | exact refinement by induction on the blocks, the outer handler pushed through every step; codes, builds and the decoder of streams as corollaries |
| C119 | the error codes of each API function, over all histories | case analysis on the reference machine of C70, the session's path known to be valid; a call that returns each code, by computation, and 2^31 bytes for encryptData by C71. Six codes of error.h are not in the model's list of codes: one is used nowhere, five only in the private isValid of chainhash_modes.h, whose answer every caller drops |
| C120 | two calls that differ in the time limit only | monotonicity of the two time conditions, the wrapped difference of verifyPassword by cases; lifted to calls by the reference machine of C70 |
| C121 | the asserts of dataheader.cpp and chainhash_data.cpp as reached from the API (the assert of blockchain_stream.cpp is in a class that the API does not use, see C54) | relation "ends at an assertion, or the same" kept by every step of the decoder; histories by induction; the exact files by C60; written files by C38 and C26 |
| C122 | the texts of the failures of setHeaderBytes (`f_decode` of C100), the size checks of the file handler before it | one postcondition through the reader: a failure for want of data leaves a rest that is too short for the named field; the case of the missing number is excluded by the reference reader of C69; a function that finds the field shows that it is unique; the converse from the reference reader, the uniqueness and the first part; for a cut header the table of its fields gives the named one, by induction on the rows of blocks |
| C123 | stringToBytes, bytesToString, addStringToBytes (utility.cpp), operator== of Bytes | induction over the strings that are added |
| C124 | the layout of C21 and C25, the reader of both builds | the layout is cancelled field by field (each field fixes its own length); what is accepted by C25 |
| C71, C72 | encryptData, getDecryptedData on any length | from the reference machine |

All properties are expressible; none is marked not applicable. Where the code violates what one would expect, the
statement in `properties.jsonl` says what it does instead, and the theorem proves that (for example C07, C08, C14, C22, C26, C40, C43).

## 4. Trusted base

**Kernel and axioms.** Coq 8.16.1's kernel. `Print Assumptions` answers "Closed under the global context" for each of the
property theorems: no axiom is used, neither from the standard library nor our own. (A whole-library listing as made by
`coqchk -o` also shows `Coq.ssr.ssrunder.Under_rel.*`, parameters of a standard library file that is loaded. No theorem depends on them.)
No `vm_compute` result is trusted beyond the kernel's own conversion, except in the three test runs named below.

**Faithfulness.** That the model says what the C++ code says rests on reading. Each definition cites file and lines.
The reading is checked by running the project's own unit tests on the model (`Tests_*`, part of the build). 989 checks of
`tests/bytes_`, `utility_`, `format_`, `chainhashdata_` and `block_unittest.cpp` were translated (all but five of them mechanically).
`dataheader_unittest.cpp` and `filehandler_unittest.cpp` were translated by hand, their random choices replaced by all modes.
`Tests_Known` has the 39 known answers of the sha and pwfunc tests. `Tests_Api` runs a whole session. All of them pass.
Three runs are not proofs: `header_calc_evaluated`, `header_blocks_evaluated` and `story_evaluated` are `Eval vm_compute in ...`
when the file is compiled. The Example beneath is about the resulting value only, so the build fails if the result changes,
but neither the kernel nor `coqchk` connects the value with the model. (As proofs they take `coqchk`, which has no VM, too long.)
For the first two, smaller cases are proved beside them. No property theorem depends on any of them.
Left out are null pointers outside of the Bytes tests, comparisons of pointers, timing, and loops over random numbers.

**Parameters instead of models.**
* The SHA-2 functions of OpenSSL: arbitrary functions of the right output length. `Sha2` is one instance (C75). That OpenSSL
  computes it is trusted, but no theorem needs it. Nothing cryptographic is assumed. Claims
  about secrecy are reductions (C61: an accepted other password exhibits a collision).
* `RAND_bytes`: arbitrary bytes of the requested number, or a failure. A failure is a reply of the wrong length, which
  `random_bytes` turns into the exception of rng.cpp. Requests of 2^31 bytes and more are `Crash Undefined` (the code narrows the
  number). `history` has only working generators, `history_any` (C74) has any.
* The clock, file permissions, free disk space and directory contents: arbitrary values.

**Simplifications.**
* Host: 64-bit little-endian (the other byte order is in `OrderModel` only, C102), `int` of 32 bits, `char` signed, two's complement.
* Memory allocation does not fail (except in `HeapModel2`, C104), no object has 2^63 bytes or more (API data in `op_ok`). Null pointers, arrays shorter than the given length and negative numbers are in `PtrModel`; elsewhere arrays are lists, which C86 justifies. No null `shared_ptr<Hash>`, null chain hash or null data pointer is passed except where a model says so.
* Enum values outside the enumerators are kept as numbers, as gcc does. The cast itself is undefined for some of them; C87 says for which inputs this happens in the header code.
* Files: a map from file identities to contents; a path names an identity. Not modelled: symbolic links changing during a
  call. Streams that fail while reading, pipes and directories are in `FaultModel` (C89), elsewhere a stream delivers its file. Other processes may do anything between calls; what they can do during a call is in `InterModel` (C88),
  where the bytes one stream delivers are those of one moment and file names and rights do not change during the call.
  A write stores a prefix of the data, its length is arbitrary (`w_room`).
* `readsome` finds an arbitrary number of buffered bytes, at least one after `peek`.
* Logging (plog) is modelled in `LogModel` only (C97): severity, place and inserted values of each line. Left out there: the fixed words, the time stamps, the texts of exceptions, and the lines that lower layers write before they throw, for which one line stands. C97 compares sessions in the same environment (clock, random bytes, files). The logger itself does not fail and does not throw. The log of a call that fails is pinned only for verifyPassword, for timeouts, for modes that do not exist (hash, file and first chain hash), for files with wrong sizes and for paths that selectFile or createFile refuses (C98). For other failures the theorems ask for one line of the right severity (C98) and compare two runs (C97), so a model that left out further lines there would not be noticed by them; `seeded/LOG.jsonl` lists such edits as survivors.
* Deleting a state object through `WorkflowState`, which has no virtual destructor, is formally undefined (every change of the state and every destruction of an API object does it). The state classes have no members of their own, and the model, `LifeModel` included, takes it to work.
* `LifeModel` never gives out an address twice, so a use after free is always seen. If the array of the password hash is gone, a function that would use it is taken to read it even if it would fail before.
* `Bytes` used by the other classes are values (`BytesModel`). `HeapModel` proves that this is justified for histories that do
  not use moved-from or dead objects and do not write behind the array left by `consumeBytes`.

**Outside of the build.** src/CMakeLists.txt leaves out `src/password_data.cpp` and `src/app.cpp`, and neither compiles against the present
classes. C82-C85 are about their text. Functions that are gone are modelled by their names and the comments about them
(`popFirstBytes` takes bytes off the front or gives an empty optional; a `Bytes` grows as needed). No other property uses these models.

**Not modelled.**
* `printStart`, `run` and `askForHeader` of `src/app.cpp`. `src/main.cpp` (demo program; it calls `getEncryptedData`, which api.h does not declare), tests, benchmarks, scripts. `tests/Attacker` is not part of the build and does not compile against the present classes (it uses private members of `Bytes` and `DataHeaderParts`).
* `API::getCurrentDirPath` (api.cpp 281-284, a call of the standard library). The `errorInfo` and `what` texts that functions put into
  a failed result are modelled in `MsgModel` only (C100), for the functions of the API object; the texts of exceptions are not modelled (a parameter of the message).
* The header in a `WorkflowDecStruct` that was moved from (`getDataHeader` on it counts as undefined), and the copy that `DataHeaderHelperStruct::Password_hash` makes beyond its value.
* filehandler.cpp 174-192 and 230-244: commented out in the source.
