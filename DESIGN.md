# Formal model of SEMLA (Modelica library encryption and licensing)

## What is modelled and how

The model is a set of total, executable Gallina functions written from the C
sources function by function.  Target platform: 64-bit Linux (LP64, glibc),
`NDEBUG` (asserts do nothing), the `default` decryptor, the `dummy` obfuscator,
any licence manager, the Linux branches of the packaging tool.

Conventions

* bytes are `ascii`, C strings and buffers are `list ascii`;
* undefined behaviour of the C code is a *distinct outcome* (`UB reason`:
  out-of-bounds read or write, null dereference, read of uninitialised memory,
  use after free, negative size) of a model function, never a normal-looking
  result;
* waiting for ever and running out of fuel is the distinct outcome `Blocked`;
  theorems either prove that it does not occur or speak of it explicitly;
* the operating system, OpenSSL, the licence manager and `malloc` are arguments
  (oracles) of the model functions, so theorems quantify over them.  What a
  theorem assumes of an oracle is a hypothesis of that theorem (typically: the
  block cipher's decryption inverts its encryption);
* every definition carries a comment naming the file and lines it models and the
  simplifications made.

Files come in groups: `XModel.v` (executable model, no proofs), `XSpec.v`
(specification written independently of the model's helpers), `XProofs.v` and
others (lemmas), `XProps.v` (theorems closed by short scripts, `Print
Assumptions`, and beside each theorem an example that meets its hypotheses).

When the code does not have a property, the group contains a theorem
`..._refuted` (a witness, or a general theorem saying when it fails) and a
theorem `..._partial` with the strongest true statement found.  Such a property
has status `partial` in MANIFEST.json and the note says what refutes it.

## Groups

| group | code | properties | method |
|---|---|---|---|
| Base | C strings, integers, outcomes | | |
| Parse, ParseText | `common/mlle_parse_command.c`, `mlle_protocol.[ch]` | C01, C05, C47, C50 | parser = declarative grammar of the first line, both directions, for all byte strings; texts of rejections |
| Wire | `common/mlle_io.c:173-295`, `mlle_utils.c` | C02-C05 | exact characterisation of safe inputs; reader after sender over all splits into records |
| Ssl | `common/mlle_ssl.c:253-410` | C06, C07, C49 | induction over the answers of the TLS library |
| Lve | `lve/*.c` except `mlle_ssl_lve.c`, `lve.c` | C08-C21, C47, C52 | step function, step lemmas, invariants over all histories |
| Tool | `tool/mlle_licensing.c:101-472` (Codes: error codes and file size) | C21-C23 | case analysis over all replies; refinement of the file handle to a suffix of the file |
| Secret, Dummy, Licence | `lve/*.c` again, `license_managers/testingdummy` | C84-C86 | two runs compared step by step (noninterference); composition with Session |
| Session | tool and LVE with TLS between them | C24 | simulation by induction over the list of calls |
| Error | `common/mlle_error.c` | C46, C51 | heap of error objects, invariants over all programs |
| Main | `lve/lve.c` | C45 | option loop = relation on argument vectors |
| Crypt | `decryptors/default/src/*.c`, `encryptDirectoryLinux` | C25-C33 | CBC/PKCS7/HMAC over an abstract block cipher; mask tables; cache invariant; induction over libraries and paths |
| Library | LVE with the default decryptor | C53 | composition of Lve, Tool, Crypt |
| Args | `packagetool/arguments.c`, part of `utils.c` | C34, C41 | option grammar, iff |
| Xml, Manifest | `packagetool/manifest.c` | C35, C36, C48 | independent XML reader; reader of printer = identity |
| Package (Copy, Enc, Dec, Zip, Tree, Icon, Keep, Lost proofs) | `packagetool/packagetool.c`, `utils.c` | C37-C41 | trees as lists of paths, induction over trees, phases of main |
| Ship | packaging composed with the LVE and the tool | C54, C55 | composition |
| PackCopy | `copyFile` of `utils.c`, composed with Package | C72 | composition |
| Help | `packagetool/arguments.c:459-589` | C73, C74 | induction over texts; composition with Args, Package |
| Embed | `embedfile/*.c`, `obfuscators/dummy` | C42-C44, C56, C83 | list lemmas; semantics of the generated macros |
| Cli | `encrypt_decrypt/*.c` | C57-C61 | composition with Crypt; frames |
| Tls | `common/mlle_ssl.c:67-250,413-450`, `tool/mlle_ssl_tool.c`, `lve/mlle_ssl_lve.c`, end of `lve/lve.c` | C67-C71, C101 | case analysis over all failures; reference counts; composition with Lve and Embed |
| Spawn | `tool/mlle_spawn_posix.c`, `mlle_licensing.c:48-98` | C62-C66 | descriptor tables, pipes, processes; invariant over all histories |
| Win | `tool/mlle_spawn_windows.c` | C75-C77 | as Spawn, with inheritance flags and saved streams |
| WinPack | the `*Win32` functions of `packagetool/utils.c` | C78-C82 | induction over trees; simulation of the encryption with slashes |
| Mem, MemTool, MemLeak | blocks and streams of `lve/*.c`, `mlle_utils.c`, `mlle_licensing.c` | C87, C88 | traces of malloc/free/use; separation-style triples with a bound on what is held |
| Nest, Spell | recursion and cache keys of `mlle_cr_decrypt.c` | C89, C90 | induction over directories; Crypt's invariant of the cache up to spelling |
| WinRead | `mlle_io.c:58-171` on Windows | C91 | case analysis; the path buffer byte by byte |
| Fail | `mlle_cr_decrypt.c` with failures of any call, its blocks and streams | C92 | triples for memory; invariant of the cache under failures; refinement of Crypt |
| FailEnc | `mlle_cr_encrypt.c` with failures of any call, its blocks | C93 | as Fail; the random bytes are replaced by old memory where RAND_bytes failed |
| Swap | no new code: Crypt's files in each other's place | C94 | case analysis over the keys of two files |
| Dead | reads and writes of `tool/mlle_licensing.c`, `mlle_ssl_tool.c`, `common/mlle_ssl.c` on the pipes of Spawn, with SIGPIPE | C95 | invariant of Spawn; induction over schedules of what other processes do |
| WinTool | `packagetool.c:48-172` with the Windows branches of `utils.c` and `arguments.c` | C96, C97 | composition of WinPack, Manifest, Ship |
| Live | `packagetool.c:48-172` and all it calls: success instead of safety | C98 | no failure at any step, by induction over the trees |
| Log | debug output: `mlle_io.c:41-57`, every use of `mlle_log` in `mlle_cr_decrypt.c` and `mlle_cr_encrypt.c`, as instrumented versions of the functions of CryptModel (proved to give the same results) | C99 | erasure; the same lines in two runs, by simulation against a specification of the log of a session |
| Version | `lve.c:45-61` (`--version`), JsonSpec: the grammar of JSON | C100 | last characters of JSON values, by cases of the grammar |
| Deliver | no new code: Live, Ship and Session put together; links (C38) | C102, C38 | composition; plain files in sessions by determinism of the session |
| Reap | Spawn with the table of processes: `mlle_spawn_posix.c:73` (fork), no wait() | C103 | invariant over histories |
| Rerun | Package with what was in the working directory before: `utils.c:1330-1374,1676-1705` (zip_close can fail) | C104 | inversion of the phases, induction over trees |
| Queue | OpenSSL's error queue in the tool: `common/mlle_ssl.c:309-450`, `common/mlle_utils.c:105-113`, `tool/mlle_licensing.c:48-98`, on top of Ssl, Tls and Tool; `SSL_get_error`, `SSL_connect` and the queue as in OpenSSL's manual, what fails and raises what is an argument | C105 | induction over readings and histories |
| WinArgs | the command line an LVE gets from a tool: `tool/mlle_spawn_windows.c:127-153`, `tool/mlle_spawn_posix.c:95`, on top of Win and Main; how `_spawnl` packs and the C runtime splits arguments as in Microsoft's manual, without quotes | C106 | induction over paths |
| Doc | no new code: the replies of Lve compared with `doc/SEMLA.md:425-545` | C107 | invariant of the stored error code over sessions |
| Mode | permissions: `packagetool/utils.c:442-471,501-551,1009-1094,1273-1307,1964-2113`, headers of archives made on Windows `ThirdParty/miniz/miniz.c:4177-4196,4263-4312`, `access()` in `tool/mlle_spawn_posix.c:49-58` | C108 | induction over paths and trees |
| Struct | (no model of its own) the manifest compared with `doc/SEMLA.md:148-192,241-260` | C109 | from C35, induction over documents |
| Release | end of an LVE: `lve/mlle_lve.c:246-262`, `lve/lve.c:281-297`; writing to a tool that is gone (SIGPIPE) | C110 | every function of the LVE keeps the life of the manager proper, composed over sessions |
| Asprintf | Windows: `common/asprintf.c:41-66` | C111 | case analysis over heaps |
| LveList | memory of the list of LVEs: `packagetool/utils.c:60-66,94-112,477-551`, `packagetool/manifest.c:299-340`, `packagetool/packagetool.c:96-143` | C112 | induction over the names |

## Not modelled

* Windows: how the directory of a program is found (`getExecutableDirectory`).  Names in a
  directory are compared byte by byte in WinPackModel and WinToolModel, but for package files that are opened.  In WinModel the C runtime's descriptors are the documented ones (lowest
  unused number, duplicates are inherited, `-2` streams of programs without console).
* The TLS protocol, AES, HMAC, random numbers, miniz: arguments of the model
  with the laws stated in the theorems.  The declared size of the product key
  (`p_len`) is arbitrary up to 32 bytes, the array has 32 (C44 shows both).
* Printf formats (in AsprintfModel what a format gives is an argument), `vscprintf` of `common/asprintf.c:29-38` (not called) and
  `libcrypto-compat.c` (replacements for other OpenSSL versions), printing of progress and usage texts except for the help
  of the packaging tool.
* `copyFile` is an argument of the packaging model (what it is assumed to do is a
  hypothesis of the theorem) and is modelled by itself in PackCopyModel.  Permissions are in
  ModeModel only, up to the staging folder (the zip library used on Linux is not part of the repository); all files belong to the user
  and directories have no modes.
* Memory: MemModel follows blocks and streams of the LVE's own code, FailModel and FailEncModel those of
  the default decryptor and encryptor; those inside a licence manager, OpenSSL and uthash are not counted, nor are sizes.  A message on
  which the LVE crashes (LveModel) ends the trace.
* Concurrent changes of files by other programs, threads, signals other than SIGPIPE (group Dead).
  In group Dead, pipes have room for what is written and records are read as wholes.
* Build files and scripts.

## Findings

Each is a theorem `..._refuted` (see the table below); the most consequential:

* C03, C24: a peer can make a receiver read outside its buffers (length fields
  are trusted) and a library path that does not fit a TLS record makes the LVE
  read uninitialised memory.
* C10, C24: `LIB` with an empty path is never answered; the tool waits for ever.
* C12: a tool without certificate makes the LVE compare with a null pointer.
* C13: `FILE` with `..` reads outside the library.
* C15: a library path is acknowledged whether or not the directory exists.
* C84, C85: a tool that is not listed can find out which directories exist on the
  vendor's machine and can check out licences.
* C19, C107: `TOOLS` is answered `VERSION 4`, and only directly after the version; `LICENSEINFO` is not
  understood, `RETURNLICENSE` is answered `NOTSIMPLE`, and a missing file with error 6 instead of 4.
* C25, C30, C31: files outside packages lose as many bytes at the end
  as the product key has; an empty
  `package.mo` makes the first request below it fail; other spellings of
  `package.mo` are not recognised when decrypting.
* C38, C39: the archive lacks files without notice; after a failure the sources
  stay in clear text in the temporary folder.
* C40, C41: icon path and library id are wrong for many paths.
* C43, C44: keys with carriage returns are not cleared completely; product keys
  that contain byte 13 are shorter than 32 bytes (libraries can still be read back).
* C72: a short read or write while copying gives a damaged file in the archive
  and exit code 0.  C74: `-h` as the value of an option makes the tool print its
  help and report success.
* C57, C58, C61: `encrypt_file` silently encrypts without mask when a package
  file cannot be read, destroys its input for some arguments, and encrypting a
  package file again makes its neighbours unreadable.
* C63, C64, C66: each LVE started leaks a descriptor of the tool, so that its
  end is never seen by reading, and keeps earlier LVEs' inputs open.
* C69, C70: an LVE that cannot set up TLS dereferences a null pointer; freed
  connections leave two copies of the private key in memory.
* C75, C77: on Windows a failed start leaves the tool's standard input and output
  redirected to dead pipes; a program without console gets the LVE's ends of the
  pipes as its own streams and never sees the end of the LVE.
* C78-C81: on Windows the search for the icon ends with the first folder, which is
  the tool's own `.library`; libraries with empty folders cannot be packaged; files
  that cannot be opened lead to null pointers; an archive that cannot be removed is
  extended; removal of a staging folder that cannot be listed counts as success.
* C96, C97: on Windows a library cannot be packaged with an icon where directories are listed by
  name (NTFS); an empty folder makes packaging fail; an archive of the same name that cannot be
  removed contributes its files, also in clear text; the path of the icon in the manifest begins with
  the name of the library; without TEMP in the environment an icon leads to a null pointer.
* C87: a file that is larger than the memory (or that cannot be examined once it is open)
  costs the LVE a file stream on every request, until it can open no file at all.
* C88: every call of the tool library leaves a buffer of 16400 bytes and the reply behind.
* C89: a path with `./` repeated in front of a name makes the decryptor nest calls with 8 KiB of
  buffers each, twice per repetition: a request of about 1000 characters exhausts 8 MiB of stack.
* C91: on Windows an empty file with a long path cannot be read, and its stream stays open.
* C92: the decryptor uses OpenSSL contexts without checking that they could be made, frees no
  masks, and leaves a stream open if there is no memory for a package file.
* C93: the encryptor does not notice that RAND_bytes failed: whole libraries are then encrypted with
  masks and IVs that are whatever was in memory, and success is reported.
* C82: outside Windows a package file that is not spelt `package.mo` is not encrypted, and success is
  reported.
* C94: the MAC of a file covers neither its name nor its library: files are accepted in each
  other's place, and a package file in the place of a file of its parent directory gives its mask away.
* C95: nothing in the tool library ignores SIGPIPE, and the tool holds the write end of the pipe it
  reads from (C63, C64). So every call on the connection of an LVE that has ended kills the tool, also
  `mlle_connections_free`; a call whose LVE ends after the request waits for ever; and
  `mlle_start_executable` does not return if the LVE cannot be executed.
* C02: a LIB message that TLS delivers in more than one record makes the LVE read memory it has not written.
* C55: a control character in a value of the command line gives an archive whose manifest is not XML.
* C49: every message of more than 1023 bytes leaves all but its last piece in freed memory.
* C98: a library with a folder called `package.mo`, or a folder `A.moc` next to the file `A.mo`, cannot
  be packaged with encryption: code 8 for the first; for the second the encrypted file cannot be
  opened, and the null stream is used.
* C99: an LVE compiled for debugging (`_DEBUG`: every Debug build with Microsoft's compiler) writes the
  product key in hexadecimal into the file named by `SEMLA_LVE_LOG_FILE` at the first request, before
  anything is checked; the packaging tool and `encrypt_file` write it to stderr.
* C100: what an LVE prints for `--version` is never JSON: there is a comma after the last member.
* C101: if an LVE ends or closes the connection during the handshake, `mlle_start_executable` makes its error
  message from an array on the stack that has not been written (`ssl_get_error_string` writes only if
  OpenSSL has queued an error); of several queued reasons only the last is given.
* C38: symbolic links in a library, and what they lead to, are left out of the archive without a message
  (`copyDirectoryLinux` copies only what `readdir` calls a file or a directory); on file systems where
  `readdir` does not tell the kind of an entry this holds for everything.
* C104: if a file cannot be added to the archive the packaging tool fails with code 9, but the archive it had begun is
  finished all the same: a readable archive without this file takes the place of the one of an earlier run
  (`C104_incomplete_refuted`, `utils.c:1368-1372`).  If writing the directory of the archive fails at the end (zip_close
  returns nothing), the tool reports success and no archive can be read (`C104_close_refuted`).
* C105: `ssl_get_error_string` leaves the text empty if OpenSSL noted no reason, as when the LVE just ends
  (`C105_silent_refuted`, `mlle_ssl.c:446-449`).  Nothing empties OpenSSL's error queue before SSL_read.  After a failed start of
  one LVE, mlle_connections_free calls SSL_shutdown for a connection that was never made, and the error this raises stays in the
  queue.  A later end of another LVE is reported with it (`C105_foreign_refuted`).  A later interrupted SSL_read on another
  connection is taken for a failure instead of being repeated, and its answer is then taken for the answer to the next call
  (`C105_interrupted_refuted`, `mlle_ssl.c:331-362`).
* C106: on Windows `_spawnl` passes the path of the LVE as its command line without quotes, and the LVE refuses options it does
  not know.  So an LVE whose path has a space in it (C:\Program Files) ends at once, and the library cannot be used
  (`C106_space_refuted`, `C106_unusable_refuted`, `mlle_spawn_windows.c:128`, `lve.c:271-277`).
* C110: an LVE that writes a reply to a tool that is gone is ended by SIGPIPE before it frees the licence manager, so features stay checked
  out (`C110_killed_refuted`); with `--checkout-feature` the manager is never freed (`C110_command_line_refuted`, `lve.c:281`); after an empty
  library path the manager is made without a library (`C110_no_path_refuted`, `mlle_lve_libpath.c:64-68`).
* C109: the contents of the file of dependencies are put inside the library element, not directly below the root as documented
  (`C109_dependencies_refuted`, `manifest.c:378-396`); the platform darwin64 is not among the documented ones (`C109_platform_refuted`); the
  example of such a file in the documentation is not XML, but is accepted and makes the manifest unreadable (`C109_documentation_refuted`,
  `doc/SEMLA.md:251-255`).
* C108: miniz writes no permissions into archives made on Windows, so an LVE for Linux from such an archive cannot be run after it is
  unpacked, and mlle_spawn refuses it (`C108_windows_refuted`, `miniz.c:4266`, `mlle_spawn_posix.c:54`).  A read-only encrypted file left
  in a library by an earlier run makes packagetool call fclose with a null pointer (`C108_stale_refuted`, `utils.c:1294-1304`).
* C111: `asprintf` of Windows builds adds 1 to an int that can be the largest one.
* C112: packagetool loses the block of each LVE that is not there (the pointer is overwritten with NULL, `utils.c:542`); after
  `createCopyArray` has run out of memory `lveList` points to the freed array (packagetool ends then without `cleanUp`).
* C103: the library never waits for an LVE that has ended (and does not keep its process id), so a tool can start
  only so many LVEs in its life as it may have children.

## Tests of the theorems against wrong programs

`seeded/mutants*.py` hold edits of the model as realistic bugs would make them;
`seeded/mutate.py` applies each to a copy outside /verif, rebuilds, and says which
theorems fail; `seeded/LOG.jsonl` has one line per attempt.

## Trusted base

* Coq 8.16.1: its kernel, and `vm_compute` where examples use it.
* No axioms: `Print Assumptions` says "Closed under the global context" for every
  theorem of the table below (column "closed").
* The reading of the C code: the model is tied to the code by the cited lines
  only.  The semantics of C, glibc (`sscanf`, `snprintf`, `strtok`...), POSIX
  (descriptors, pipes, directories) and of the OpenSSL calls are those written in
  the model's definitions.
* The specifications (`*Spec.v`), which say what the theorems mean.

## Theorems

<!-- generated by design_tables.py -->

| property | status | theorem | file | Print Assumptions |
|---|---|---|---|---|
| C01 Command lines are accepted exactly when they follow the protocol grammar | proved | `C01_accepts_iff_grammar` | ParseProps.v | closed |
|  |  | `C01_rejects_with_the_reason` | ParseProps.v | closed |
|  |  | `C01_one_meaning` | ParseProps.v | closed |
|  |  | `C01_length_range` | ParseProps.v | closed |
| C02 A message sent with the send API is received unchanged | partial | `C02_reader_returns_what_was_sent` | WireProps.v | closed |
|  |  | `C02_lve_one_record` | LveProps.v | closed |
|  |  | `C02_lve_cut_refuted` | LveProps.v | closed |
| C03 No bytes from the peer make the receiver touch memory outside its buffers | partial | `C03_extract_safe_iff` | WireProps.v | closed |
|  |  | `C03_reader_safe_iff` | WireProps.v | closed |
|  |  | `C03_reader_refuted` | WireProps.v | closed |
|  |  | `C03_sent_messages_are_safe` | WireProps.v | closed |
| C04 The payload handed to a command handler consists only of bytes the peer sent | partial | `C04_tool_payload_is_what_was_sent` | WireProps.v | closed |
|  |  | `C04_lve_short_payload_refuted` | LveProps.v | closed |
| C05 Outgoing headers always fit their fixed-size buffers | proved | `C05_simple_header` | WireProps.v | closed |
|  |  | `C05_number_header` | WireProps.v | closed |
|  |  | `C05_length_message` | WireProps.v | closed |
|  |  | `C05_number_and_length_message` | WireProps.v | closed |
| C06 Reading a message from TLS returns exactly one record whatever the chunking and retries | proved | `C06_one_record` | SslProps.v | closed |
|  |  | `C06_error_reported` | SslProps.v | closed |
|  |  | `C06_no_loss_no_duplication` | SslProps.v | closed |
|  |  | `C06_memory_safe` | SslProps.v | closed |
| C07 Writing a message to TLS sends it exactly once or reports failure | partial | `C07_write_once` | SslProps.v | closed |
|  |  | `C07_failure_reported` | SslProps.v | closed |
|  |  | `C07_every_run` | SslProps.v | closed |
|  |  | `C07_huge_message_refuted` | SslProps.v | closed |
| C08 The LVE serves files and features only after a version handshake and a library path | proved | `C08_version_and_lib_first` | LveProps.v | closed |
|  |  | `C08_at_most_once` | LveProps.v | closed |
| C09 Malformed or out-of-order commands change nothing and are answered with error 1 | proved | `C09_refused_without_effect` | LveProps.v | closed |
| C10 Every request is answered by exactly one reply | partial | `C10_one_reply_each_partial` | LveProps.v | closed |
|  |  | `C10_empty_library_path_refuted` | LveProps.v | closed |
| C100 Version information is JSON | partial | `C100_refuted` | VersionProps.v | closed |
|  |  | `C100_comma_partial` | VersionProps.v | closed |
| C101 A failed handshake is reported with its reason | partial | `C101_reason_partial` | TlsProps.v | closed |
|  |  | `C101_silent_refuted` | TlsProps.v | closed |
|  |  | `C101_first_refuted` | TlsProps.v | closed |
| C102 A library that is packaged reaches the tools of its users | partial | `C102_delivered_partial` | DeliverProps.v | closed |
| C103 LVEs that have ended leave no processes behind | partial | `C103_refuted` | ReapProps.v | closed |
|  |  | `C103_exhausted_refuted` | ReapProps.v | closed |
|  |  | `C103_wait_partial` | ReapProps.v | closed |
| C104 A run of the packaging tool leaves a complete archive or the one that was there | partial | `C104_incomplete_refuted` | RerunProps.v | closed |
|  |  | `C104_close_refuted` | RerunProps.v | closed |
|  |  | `C104_found_partial` | RerunProps.v | closed |
| C105 A reply that can be read is read, and one that cannot is reported with the reason | partial | `C105_reason_partial` | QueueProps.v | closed |
|  |  | `C105_record_partial` | QueueProps.v | closed |
|  |  | `C105_silent_refuted` | QueueProps.v | closed |
|  |  | `C105_foreign_refuted` | QueueProps.v | closed |
|  |  | `C105_interrupted_refuted` | QueueProps.v | closed |
| C106 An LVE that a tool starts serves the tool | partial | `C106_linux` | WinArgsProps.v | closed |
|  |  | `C106_windows_partial` | WinArgsProps.v | closed |
|  |  | `C106_space_refuted` | WinArgsProps.v | closed |
|  |  | `C106_unusable_refuted` | WinArgsProps.v | closed |
| C107 The LVE answers as the specification of the protocol says | partial | `C107_replies_partial` | DocProps.v | closed |
|  |  | `C107_tools_refuted` | DocProps.v | closed |
|  |  | `C107_returnlicense_refuted` | DocProps.v | closed |
|  |  | `C107_licenseinfo_refuted` | DocProps.v | closed |
|  |  | `C107_tools_late_refuted` | DocProps.v | closed |
|  |  | `C107_not_found_refuted` | DocProps.v | closed |
| C108 Packaged files keep their permissions | partial | `C108_library` | ModeProps.v | closed |
|  |  | `C108_encrypted` | ModeProps.v | closed |
|  |  | `C108_lves` | ModeProps.v | closed |
|  |  | `C108_stale_refuted` | ModeProps.v | closed |
|  |  | `C108_windows_refuted` | ModeProps.v | closed |
| C109 The manifest has the documented structure | partial | `C109_structure_partial` | StructProps.v | closed |
|  |  | `C109_dependencies_refuted` | StructProps.v | closed |
|  |  | `C109_platform_refuted` | StructProps.v | closed |
|  |  | `C109_documentation_refuted` | StructProps.v | closed |
| C11 A tool whose public key is not compiled into the LVE never receives file contents | proved | `C11_no_file_contents` | LveProps.v | closed |
|  |  | `C11_no_file_opened` | LveProps.v | closed |
|  |  | `C11_file_refused` | LveProps.v | closed |
| C110 Licences are given back | partial | `C110_life` | ReleaseProps.v | closed |
|  |  | `C110_library` | ReleaseProps.v | closed |
|  |  | `C110_gone_partial` | ReleaseProps.v | closed |
|  |  | `C110_killed_refuted` | ReleaseProps.v | closed |
|  |  | `C110_command_line_refuted` | ReleaseProps.v | closed |
|  |  | `C110_no_path_refuted` | ReleaseProps.v | closed |
| C111 asprintf() on Windows is that of Linux | partial | `C111_text_partial` | AsprintfProps.v | closed |
|  |  | `C111_failure` | AsprintfProps.v | closed |
|  |  | `C111_memory_partial` | AsprintfProps.v | closed |
|  |  | `C111_longest_refuted` | AsprintfProps.v | closed |
| C112 packagetool keeps its list of LVEs properly | partial | `C112_run` | LveListProps.v | closed |
|  |  | `C112_completed` | LveListProps.v | closed |
|  |  | `C112_freed_partial` | LveListProps.v | closed |
|  |  | `C112_lost_refuted` | LveListProps.v | closed |
|  |  | `C112_dangling_refuted` | LveListProps.v | closed |
| C12 Tool approval is exactly membership of the tool's key in the compiled-in list | partial | `C12_approved_iff_listed_partial` | LveProps.v | closed |
|  |  | `C12_no_certificate_refuted` | LveProps.v | closed |
| C13 A FILE request can only read files inside the library directory | partial | `C13_inside_library_partial` | LveProps.v | closed |
|  |  | `C13_dotdot_refuted` | LveProps.v | closed |
| C14 A FILE reply is the whole file, decrypted when it is encrypted, or an error | proved | `C14_plain_file` | LveProps.v | closed |
|  |  | `C14_encrypted_file` | LveProps.v | closed |
|  |  | `C14_decryption_fails` | LveProps.v | closed |
|  |  | `C14_unreadable_file` | LveProps.v | closed |
| C15 A library path is acknowledged only if the directory exists | partial | `C15_yes_conditions_partial` | LveProps.v | closed |
|  |  | `C15_yes_without_directory_refuted` | LveProps.v | closed |
| C16 Library path normalisation keeps the directory and never empties it | proved | `C16_library_path` | LveProps.v | closed |
|  |  | `C16_unique` | LveProps.v | closed |
| C17 A feature is granted exactly when the licence manager grants it | proved | `C17_feature` | LveProps.v | closed |
|  |  | `C17_returnfeature` | LveProps.v | closed |
| C18 Licence-information requests get the documented replies | partial | `C18_license_partial` | LveProps.v | closed |
|  |  | `C18_returnlicense_refuted` | LveProps.v | closed |
| C19 TOOLS is answered with the list of allowed tools | partial | `C19_tools_refuted` | LveProps.v | closed |
| C20 With a library-wide licence feature, no file is served unless it was checked out | partial | `C20_global_licence_partial` | LveProps.v | closed |
|  |  | `C20_context_failure_refuted` | LveProps.v | closed |
| C21 Version negotiation agrees on both sides | proved | `C21_version` | LveProps.v | closed |
|  |  | `C21_tool_range` | ToolProps.v | closed |
|  |  | `C21_tool_asks` | ToolProps.v | closed |
| C22 Tool calls report success exactly on the documented reply and otherwise set an error | partial | `C22_result_of_a_reply` | ToolProps.v | closed |
|  |  | `C22_any_input` | ToolProps.v | closed |
|  |  | `C22_failed_read` | ToolProps.v | closed |
|  |  | `C22_version_not_written_refuted` | ToolProps.v | closed |
|  |  | `C22_codes` | CodesProps.v | closed |
|  |  | `C22_code_unique` | CodesProps.v | closed |
|  |  | `C22_texts` | CodesProps.v | closed |
| C23 Reading file contents piecewise gives the file exactly once | proved | `C23_reads` | ToolProps.v | closed |
|  |  | `C23_one_read` | ToolProps.v | closed |
|  |  | `C23_size` | CodesProps.v | closed |
| C24 A tool and an LVE stay in lock step for a whole session | partial | `C24_lock_step_partial` | SessionProps.v | closed |
|  |  | `C24_file_delivered` | SessionProps.v | closed |
|  |  | `C24_tls_records_fair` | SessionProps.v | closed |
|  |  | `C24_empty_path_refuted` | SessionProps.v | closed |
|  |  | `C24_long_path_refuted` | SessionProps.v | closed |
| C25 Encryption of a library is undone by decryption | partial | `C25_round_trip_partial` | CryptProps.v | closed |
|  |  | `C25_case_refuted` | CryptProps.v | closed |
| C26 Files can be requested in any order | partial | `C26_any_order_partial` | CryptProps.v | closed |
|  |  | `C31_empty_package_refuted` | CryptProps.v | closed |
| C27 Encrypting in fixed-size chunks equals encrypting the whole file | proved | `C27_whole_file` | CryptProps.v | closed |
| C28 A tampered encrypted file is rejected | proved | `C28_authentic` | CryptProps.v | closed |
|  |  | `C28_tampered` | CryptProps.v | closed |
| C29 Decryption is memory safe for every file content | partial | `C29_safe_partial` | CryptProps.v | closed |
|  |  | `C29_short_file_refuted` | CryptProps.v | closed |
|  |  | `C29_long_path_refuted` | CryptProps.v | closed |
| C30 Files in directories without package.mo survive encryption | partial | `C30_outside_refuted` | CryptProps.v | closed |
| C31 An empty package.mo does not make its directory undecryptable | partial | `C31_empty_package_refuted` | CryptProps.v | closed |
|  |  | `C25_round_trip_partial` | CryptProps.v | closed |
| C32 Encrypting package.mo after other files of its directory is detected | proved | `C32_late_package` | CryptProps.v | closed |
|  |  | `C32_below_refuted` | CryptProps.v | closed |
| C33 Each package directory has its own key mask, known only through its package file | proved | `C33_nearest_mask` | CryptProps.v | closed |
|  |  | `C33_other_masks` | CryptProps.v | closed |
| C34 Packaging arguments are accepted exactly when well formed | partial | `C34_accepted_partial` | ArgsProps.v | closed |
|  |  | `C34_values` | ArgsProps.v | closed |
|  |  | `C34_prefix_refuted` | ArgsProps.v | closed |
|  |  | `C34_empty_refuted` | ArgsProps.v | closed |
| C35 The manifest is well-formed XML that carries the given values | partial | `C35_reads_back_partial` | ManifestProps.v | closed |
|  |  | `C35_spaces_partial` | ManifestProps.v | closed |
|  |  | `C35_attribute_refuted` | ManifestProps.v | closed |
|  |  | `C35_control_refuted` | ManifestProps.v | closed |
| C36 Tool and dependency descriptions are copied completely into the manifest | partial | `C36_copied_partial` | ManifestProps.v | closed |
|  |  | `C36_last_line_refuted` | ManifestProps.v | closed |
|  |  | `C36_eof_byte_refuted` | ManifestProps.v | closed |
|  |  | `C36_long_line_refuted` | ManifestProps.v | closed |
| C37 An encrypted archive contains no plaintext Modelica file | proved | `C37_no_modelica` | PackageProps.v | closed |
|  |  | `C37_contents` | PackageProps.v | closed |
| C38 The archive contains every file of the library | partial | `C38_complete_partial` | PackageProps.v | closed |
|  |  | `C38_spelling_refuted` | PackageProps.v | closed |
|  |  | `C38_folder_refuted` | PackageProps.v | closed |
|  |  | `C38_link_refuted` | DeliverProps.v | closed |
|  |  | `C38_refuted` | PackageProps.v | closed |
|  |  | `C38_replaced_refuted` | PackageProps.v | closed |
|  |  | `C38_failures_refuted` | PackageProps.v | closed |
| C39 No copy of the library is left in the temporary folder | partial | `C39_removed_partial` | PackageProps.v | closed |
|  |  | `C39_left_refuted` | PackageProps.v | closed |
|  |  | `C39_cleartext_refuted` | PackageProps.v | closed |
|  |  | `C39_silent_refuted` | PackageProps.v | closed |
| C40 The icon path in the manifest is relative to the library's top-level directory | partial | `C40_icon_partial` | ShipProps.v | closed |
|  |  | `C40_prefix_refuted` | ShipProps.v | closed |
|  |  | `C40_subdirectory_refuted` | ShipProps.v | closed |
|  |  | `C40_long_refuted` | ShipProps.v | closed |
|  |  | `C40_overrun_refuted` | ShipProps.v | closed |
| C41 The library id is the last component of the library path | partial | `C41_library_id_partial` | ArgsProps.v | closed |
|  |  | `C41_backslash_refuted` | ArgsProps.v | closed |
|  |  | `C41_root_refuted` | ArgsProps.v | closed |
| C42 Embedded keys are reproduced exactly | proved | `C42_exact` | EmbedProps.v | closed |
|  |  | `C42_line_ends` | EmbedProps.v | closed |
|  |  | `C42_approved` | EmbedProps.v | closed |
| C43 Clearing an embedded key removes every key byte | partial | `C43_cleared_partial` | EmbedProps.v | closed |
|  |  | `C43_left_refuted` | EmbedProps.v | closed |
| C44 The generated product key is 32 bytes long | partial | `C44_drawn_partial` | EmbedProps.v | closed |
|  |  | `C44_short_refuted` | EmbedProps.v | closed |
|  |  | `C44_defined` | EmbedProps.v | closed |
|  |  | `C44_round_trip` | KeyProps.v | closed |
| C45 LVE command-line options are parsed safely | partial | `C45_options_partial` | MainProps.v | closed |
|  |  | `C45_missing_value_refuted` | MainProps.v | closed |
|  |  | `C45_checkout_partial` | MainProps.v | closed |
|  |  | `C45_no_manager_refuted` | MainProps.v | closed |
|  |  | `C45_empty_path` | MainProps.v | closed |
| C46 Error messages are kept up to a fixed length and freed once | proved | `C46_formatted_message` | ErrorProps.v | closed |
|  |  | `C46_literal_message` | ErrorProps.v | closed |
|  |  | `C46_freed_once` | ErrorProps.v | closed |
| C47 Protocol error texts always fit their buffers | proved | `C47_lve_text_fits` | LveProps.v | closed |
|  |  | `C47_tool_text_fits` | ToolProps.v | closed |
|  |  | `C47_parser_texts_fit` | ParseProps.v | closed |
| C48 The platform in the manifest is the one in the LVE's file name | proved | `C48_executables` | ManifestProps.v | closed |
| C49 Message buffers are cleared before they are released | partial | `C49_one_piece_partial` | SslProps.v | closed |
|  |  | `C49_read_buffers_cleared_refuted` | SslProps.v | closed |
|  |  | `C49_long_record_refuted` | SslProps.v | closed |
| C50 A rejected command line comes with a text that names the problem | partial | `C50_rejection_text_partial` | ParseTextProps.v | closed |
|  |  | `C50_blank_field_refuted` | ParseTextProps.v | closed |
| C51 Error objects are neither leaked nor used after release | partial | `C51_no_leak_partial` | ErrorProps.v | closed |
|  |  | `C51_overwrite_refuted` | ErrorProps.v | closed |
|  |  | `C51_handed_over` | ErrorProps.v | closed |
| C52 Refusals of out-of-order commands name the command and exactly the alternatives | proved | `C52_refusal_names_alternatives` | LveTextProps.v | closed |
| C53 A tool reads from an encrypted library what the vendor put into it | partial | `C53_library_delivered_partial` | LibraryProps.v | closed |
|  |  | `C53_outside_refuted` | LibraryProps.v | closed |
| C54 A packaged library gives its sources back to a licensed tool | partial | `C54_decrypts_partial` | ShipProps.v | closed |
|  |  | `C54_session_partial` | ShipProps.v | closed |
|  |  | `C54_empty_refuted` | ShipLostProps.v | closed |
| C55 The manifest in the archive says what the command line said | partial | `C55_manifest_partial` | ShipProps.v | closed |
|  |  | `C55_control_refuted` | ShipLostProps.v | closed |
| C56 The key embedding program fails cleanly | partial | `C56_refuses_partial` | EmbedProps.v | closed |
|  |  | `C56_missing_refuted` | EmbedProps.v | closed |
| C57 Encrypting a library file by file equals encrypting it at once | partial | `C57_file_by_file_partial` | CliProps.v | closed |
|  |  | `C57_damaged_refuted` | CliProps.v | closed |
| C58 encrypt_file writes the file it is told to write and nothing else | partial | `C58_only_output_partial` | CliProps.v | closed |
|  |  | `C58_plain_name_partial` | CliProps.v | closed |
|  |  | `C58_overwritten_refuted` | CliProps.v | closed |
| C59 decrypt_file writes authentic contents or nothing | proved | `C59_all_or_nothing` | CliProps.v | closed |
|  |  | `C59_authentic` | CliProps.v | closed |
| C60 decrypt_file gives back every file of an encrypted library | partial | `C60_round_trip_partial` | CliProps.v | closed |
|  |  | `C60_large_refuted` | CliProps.v | closed |
| C61 Encrypting one file of a library again keeps the library readable | partial | `C61_again_partial` | CliProps.v | closed |
|  |  | `C61_package_refuted` | CliProps.v | closed |
| C62 A connection is connected to the LVE that was started | partial | `C62_connected_partial` | SpawnProps.v | closed |
|  |  | `C62_no_stdin_refuted` | SpawnProps.v | closed |
| C63 Freed connections leave no descriptors behind | partial | `C63_restored_partial` | SpawnProps.v | closed |
|  |  | `C63_leak_refuted` | SpawnProps.v | closed |
| C64 The tool notices that an LVE has ended | partial | `C64_write_partial` | SpawnProps.v | closed |
|  |  | `C64_read_refuted` | SpawnProps.v | closed |
| C65 LVEs do not outlive the tool | proved | `C65_orphans_end` | SpawnProps.v | closed |
| C66 Freeing a connection closes the input of the LVE | partial | `C66_freed_partial` | SpawnProps.v | closed |
|  |  | `C66_inherited_refuted` | SpawnProps.v | closed |
| C67 An LVE serves files only over a completed handshake with a listed key | proved | `C67_only_listed` | TlsProps.v | closed |
|  |  | `C67_handshake_first` | TlsProps.v | closed |
| C68 Private keys are cleared from the stack whatever fails | partial | `C68_cleared_partial` | TlsProps.v | closed |
|  |  | `C68_left_refuted` | TlsProps.v | closed |
| C69 An LVE that cannot serve ends cleanly | partial | `C69_ends_partial` | TlsProps.v | closed |
|  |  | `C69_no_setup_refuted` | TlsProps.v | closed |
| C70 Freeing a connection releases all that was set up for it | partial | `C70_released_partial` | TlsProps.v | closed |
|  |  | `C70_key_left_refuted` | TlsProps.v | closed |
| C71 A failed start comes with exactly one error | proved | `C71_error_iff` | TlsProps.v | closed |
| C72 Files are copied exactly or the packaging tool fails | partial | `C72_copied_partial` | PackCopyProps.v | closed |
|  |  | `C72_archive_partial` | PackCopyProps.v | closed |
|  |  | `C72_short_read_refuted` | PackCopyProps.v | closed |
|  |  | `C72_short_write_refuted` | PackCopyProps.v | closed |
|  |  | `C72_archive_refuted` | PackCopyProps.v | closed |
| C73 The help text lists the accepted options and keeps to the width of the terminal | proved | `C73_text` | HelpProps.v | closed |
|  |  | `C73_columns` | HelpProps.v | closed |
|  |  | `C73_options` | HelpProps.v | closed |
| C74 Exit code 0 of packagetool means an archive was made | partial | `C74_success_partial` | HelpProps.v | closed |
|  |  | `C74_value_refuted` | HelpProps.v | closed |
| C75 Starting an LVE on Windows leaves the tool's standard streams alone | partial | `C75_streams_partial` | WinProps.v | closed |
|  |  | `C75_failed_start_refuted` | WinProps.v | closed |
|  |  | `C75_no_console_refuted` | WinProps.v | closed |
| C76 A connection on Windows is connected to the LVE that was started | partial | `C76_connected_partial` | WinProps.v | closed |
|  |  | `C76_closed_input_refuted` | WinProps.v | closed |
| C77 On Windows ends of LVEs are noticed and freed connections leave nothing | partial | `C77_end_noticed_partial` | WinProps.v | closed |
|  |  | `C77_freed_partial` | WinProps.v | closed |
|  |  | `C77_restored_partial` | WinProps.v | closed |
|  |  | `C77_no_console_refuted` | WinProps.v | closed |
| C78 On Windows the icon file of a library is found | partial | `C78_icon_partial` | WinPackProps.v | closed |
|  |  | `C78_icon_refuted` | WinPackProps.v | closed |
| C79 On Windows the archive holds the files of the library | partial | `C79_archive_partial` | WinPackProps.v | closed |
|  |  | `C79_empty_folder_refuted` | WinPackProps.v | closed |
|  |  | `C79_unreadable_refuted` | WinPackProps.v | closed |
|  |  | `C79_old_refuted` | WinPackProps.v | closed |
| C80 On Windows a copied library is complete or a failure is reported | partial | `C80_copy_partial` | WinPackProps.v | closed |
|  |  | `C80_unreadable_refuted` | WinPackProps.v | closed |
|  |  | `C80_incomplete_refuted` | WinPackProps.v | closed |
| C81 On Windows success of the removal means that the staging folder is gone | partial | `C81_removed_partial` | WinPackProps.v | closed |
|  |  | `C81_left_partial` | WinPackProps.v | closed |
|  |  | `C81_unlisted_refuted` | WinPackProps.v | closed |
| C82 Libraries are encrypted on Windows as elsewhere | partial | `C82_same` | WinPackProps.v | closed |
|  |  | `C82_spelling_refuted` | WinPackProps.v | closed |
| C83 The random key program never makes a header without a drawn key | proved | `C83_clean` | EmbedProps.v | closed |
| C84 A tool without entitlement learns nothing about the vendor's library | partial | `C84_unlisted_partial` | LicenceProps.v | closed |
|  |  | `C84_unlicensed_partial` | LicenceProps.v | closed |
|  |  | `C84_directories_refuted` | LicenceProps.v | closed |
| C85 Licences are taken only for tools that may use the library | partial | `C85_only_asked_partial` | LicenceProps.v | closed |
|  |  | `C85_licence_refuted` | LicenceProps.v | closed |
| C86 A tool's feature call succeeds exactly when the licence manager grants the feature | proved | `C86_feature_call` | LicenceProps.v | closed |
|  |  | `C86_testing_manager` | LicenceProps.v | closed |
|  |  | `C86_testing_library` | LicenceProps.v | closed |
| C87 The LVE uses memory and file streams properly and does not accumulate them | partial | `C87_proper` | MemProps.v | closed |
|  |  | `C87_bounded_partial` | MemProps.v | closed |
|  |  | `C87_per_message` | MemProps.v | closed |
|  |  | `C87_bounded_refuted` | MemProps.v | closed |
|  |  | `C87_released_refuted` | MemProps.v | closed |
| C88 Calls of the tool library leave no memory behind | partial | `C88_proper` | MemProps.v | closed |
|  |  | `C88_bound_partial` | MemProps.v | closed |
|  |  | `C88_growth_refuted` | MemProps.v | closed |
| C89 The stack needed to decrypt a file is bounded by the depth of the library | partial | `C89_room_partial` | NestProps.v | closed |
|  |  | `C89_spelled_refuted` | NestProps.v | closed |
|  |  | `C89_needed` | NestProps.v | closed |
| C90 A file of an encrypted library can be requested under every name the file system has for it | partial | `C90_spelling_partial` | SpellProps.v | closed |
|  |  | `C90_other_names_refuted` | SpellProps.v | closed |
| C91 On Windows files are read whatever the length of their path | partial | `C91_safe` | WinReadProps.v | closed |
|  |  | `C91_read_partial` | WinReadProps.v | closed |
|  |  | `C91_empty_refuted` | WinReadProps.v | closed |
| C92 Failures of the system while decrypting do no harm | partial | `C92_proper` | FailProps.v | closed |
|  |  | `C92_kept_partial` | FailProps.v | closed |
|  |  | `C92_right_or_nothing_partial` | FailProps.v | closed |
|  |  | `C92_recovers` | FailProps.v | closed |
|  |  | `C92_no_failures` | FailProps.v | closed |
|  |  | `C92_crash_refuted` | FailProps.v | closed |
|  |  | `C92_given_back_refuted` | FailProps.v | closed |
|  |  | `C92_stream_refuted` | FailProps.v | closed |
| C93 Failures of the system while encrypting do no harm | partial | `C93_proper` | FailEncProps.v | closed |
|  |  | `C93_kept_partial` | FailEncProps.v | closed |
|  |  | `C93_right_or_nothing_partial` | FailEncProps.v | closed |
|  |  | `C93_no_failures` | FailEncProps.v | closed |
|  |  | `C93_random_refuted` | FailEncProps.v | closed |
|  |  | `C93_crash_refuted` | FailEncProps.v | closed |
|  |  | `C93_retry_refuted` | FailEncProps.v | closed |
|  |  | `C93_given_back_refuted` | FailEncProps.v | closed |
| C94 An encrypted file is served only as the file it was made from | partial | `C94_other_key_partial` | SwapProps.v | closed |
|  |  | `C94_exchanged_refuted` | SwapProps.v | closed |
|  |  | `C94_mask_refuted` | SwapProps.v | closed |
|  |  | `C94_other_library_refuted` | SwapProps.v | closed |
| C95 The tool survives LVEs that end | partial | `C95_answered_partial` | DeadProps.v | closed |
|  |  | `C95_gone_partial` | DeadProps.v | closed |
|  |  | `C95_free_partial` | DeadProps.v | closed |
|  |  | `C95_killed_refuted` | DeadProps.v | closed |
|  |  | `C95_silent_refuted` | DeadProps.v | closed |
|  |  | `C95_never_refuted` | DeadProps.v | closed |
|  |  | `C95_start_refuted` | DeadProps.v | closed |
|  |  | `C95_started_partial` | DeadProps.v | closed |
|  |  | `C95_heard` | DeadProps.v | closed |
|  |  | `C95_start_gone_partial` | DeadProps.v | closed |
| C96 On Windows a packaged library is complete, concealed and can be read | partial | `C96_decrypts_partial` | WinToolProps.v | closed |
|  |  | `C96_contents_partial` | WinToolProps.v | closed |
|  |  | `C96_complete_partial` | WinToolProps.v | closed |
|  |  | `C96_empty_refuted` | WinToolProps.v | closed |
|  |  | `C96_old_refuted` | WinToolProps.v | closed |
| C97 On Windows the manifest says what was asked for, and the icon can be used | partial | `C97_manifest_partial` | WinToolProps.v | closed |
|  |  | `C97_prefix_refuted` | WinToolProps.v | closed |
|  |  | `C97_icon_refuted` | WinToolProps.v | closed |
|  |  | `C97_temp_refuted` | WinToolProps.v | closed |
| C98 Packaging succeeds when nothing fails | partial | `C98_succeeds_partial` | LiveProps.v | closed |
|  |  | `C98_plain_partial` | LiveProps.v | closed |
|  |  | `C98_delivered_partial` | LiveProps.v | closed |
|  |  | `C98_folder_refuted` | LiveProps.v | closed |
|  |  | `C98_refuted` | LiveProps.v | closed |
| C99 The debug log gives nothing away | partial | `C99_results` | LogProps.v | closed |
|  |  | `C99_lines_partial` | LogProps.v | closed |
|  |  | `C99_same_partial` | LogProps.v | closed |
|  |  | `C99_packaging_partial` | LogProps.v | closed |
|  |  | `C99_debug_refuted` | LogProps.v | closed |
|  |  | `C99_debug_packaging_refuted` | LogProps.v | closed |
