{"id": "C01", "title": "Command lines are accepted exactly when they follow the protocol grammar", "statement": "For every byte string handed to the command parser, the parser reports a valid command if and only if the first line consists of a known command word followed by exactly the number of fields that command takes, each field starting with a decimal integer and no announced length being negative; the command id, number and length it returns are the ones written on that line, and in every other case the returned command is the undefined command and the reason reported is the one that applies.", "quantifier": "every NUL-terminated byte string, of any length and any content", "why_tests_cant": "the input space is all byte strings; the unit tests sample seven lines", "anchors": ["src/common/mlle_parse_command.c:mlle_tokenize", "src/common/mlle_parse_command.c:parse_int", "src/common/mlle_parse_command.c:mlle_parse_command", "src/common/mlle_protocol.c"]}
{"id": "C02", "title": "A message sent with the send API is received unchanged", "statement": "Whatever command, number and payload one side sends with the send functions, the other side's reader returns the same command, the same number, the same length and byte-for-byte the same payload, however the transport splits the message into records (as long as the header line arrives in the first record), and it consumes exactly that message from the stream.", "quantifier": "every command of every form, every number, every payload, every split into records, any bytes following on the stream", "why_tests_cant": "payloads and record boundaries are unbounded; a boundary can fall at any offset", "anchors": ["src/common/mlle_io.c:mlle_send_simple_form", "src/common/mlle_io.c:mlle_send_number_form", "src/common/mlle_io.c:mlle_send_length_form", "src/common/mlle_io.c:mlle_send_number_and_length_form", "src/common/mlle_utils.c:mlle_read_command", "src/common/mlle_utils.c:extract_data"]}
{"id": "C03", "title": "No bytes from the peer make the receiver touch memory outside its buffers", "statement": "Whatever records the peer sends, the functions that split a received record into header and payload and that read the rest of a payload never read or write outside the buffers they own.", "quantifier": "every sequence of records a peer can send, every record content", "why_tests_cant": "only specific length/content combinations trigger the fault and without a sanitizer the fault is silent", "anchors": ["src/common/mlle_utils.c:extract_data", "src/common/mlle_utils.c:mlle_read_command", "src/lve/mlle_lve.c:mlle_lve_handle_command"]}
{"id": "C04", "title": "The payload handed to a command handler consists only of bytes the peer sent", "statement": "After a command with a payload has been received, every byte of the payload buffer up to the announced length was sent by the peer; no uninitialised heap byte is ever used by the handler.", "quantifier": "every record and every announced length", "why_tests_cant": "uninitialised memory usually happens to contain zero in a test run", "anchors": ["src/common/mlle_utils.c:extract_data", "src/lve/mlle_lve.c:mlle_lve_handle_command"]}
{"id": "C05", "title": "Outgoing headers always fit their fixed-size buffers", "statement": "For every command in the protocol table, every number and every payload length, the header line produced by the send functions fits in the buffer reserved for it, so no header is ever truncated on the wire.", "quantifier": "every command, every 64-bit number, every 64-bit length", "why_tests_cant": "the extreme widths (20-character numbers and lengths with the longest command name) are not exercised", "anchors": ["src/common/mlle_io.c", "src/common/mlle_protocol.h"]}
{"id": "C06", "title": "Reading a message from TLS returns exactly one record whatever the chunking and retries", "statement": "One call of the message read function returns the concatenation of the bytes of one whole record, in order and without loss or duplication, whatever sizes the TLS library hands out per read call and however often it asks to retry; if the TLS library reports an error the call returns -1 and no partial message is returned as if it were complete.", "quantifier": "every record content and length, every chunking, every pattern of retries, every error position", "why_tests_cant": "chunk sizes and retry patterns depend on timing", "anchors": ["src/common/mlle_ssl.c:ssl_read_message"]}
{"id": "C07", "title": "Writing a message to TLS sends it exactly once or reports failure", "statement": "One call of the message write function hands the complete message to the TLS library exactly once, retrying when asked to, and returns the number of bytes written; on any other TLS result it returns -1.", "quantifier": "every message, every pattern of retry requests, every error", "why_tests_cant": "retry patterns depend on timing", "anchors": ["src/common/mlle_ssl.c:ssl_write_message"]}
{"id": "C08", "title": "The LVE serves files and features only after a version handshake and a library path", "statement": "In every session history, a FILECONT, a feature checkout or a feature return can only happen after the tool has sent a VERSION the LVE accepted and, later, a LIB command; a LIB command is honoured at most once per session and VERSION at most once.", "quantifier": "every finite sequence of incoming records, from session start", "why_tests_cant": "all interleavings of good, bad and malformed commands", "anchors": ["src/lve/mlle_lve.c:mlle_lve_handle_command", "src/lve/mlle_lve.c:mlle_lve_receive", "src/lve/mlle_protocol_lve_state.c:mlle_next_state"]}
{"id": "C09", "title": "Malformed or out-of-order commands change nothing and are answered with error 1", "statement": "If a received command does not parse, or is not allowed at this point of the session, the LVE sends exactly one ERROR reply with code 1 and its session (protocol position, library path, approval, licences, decryption caches) is exactly as before.", "quantifier": "every session state, every record", "why_tests_cant": "the product of all states and all malformed inputs", "anchors": ["src/lve/mlle_lve.c:mlle_lve_receive", "src/lve/mlle_lve.c:mlle_lve_handle_command"]}
{"id": "C10", "title": "Every request is answered by exactly one reply", "statement": "For every request the LVE reads it sends exactly one reply, so that a tool that sends one request and waits for one reply is never left waiting and never sees a stale reply.", "quantifier": "every session history and every request", "why_tests_cant": "a missing reply appears only for particular payloads and shows up as a hang", "anchors": ["src/lve/mlle_lve.c", "src/lve/mlle_lve_libpath.c", "src/lve/mlle_lve_file.c", "src/lve/mlle_lve_feature.c", "src/lve/mlle_lve_license.c"]}
{"id": "C11", "title": "A tool whose public key is not compiled into the LVE never receives file contents", "statement": "In every session in which the tool's public key is not in the LVE's list, no reply carries file contents, whatever the tool sends; no file is opened for it, and every FILE request after the LIB command is answered with a refusal (error 5, or 4 or 8 if the library path already had a problem).", "quantifier": "every sequence of incoming records, every file system content, every licence manager behaviour", "why_tests_cant": "all command sequences an unapproved tool could try", "anchors": ["src/lve/mlle_lve_pubkey.c:mlle_lve_validate_pubkey", "src/lve/mlle_lve_file.c:mlle_lve_file"]}
{"id": "C12", "title": "Tool approval is exactly membership of the tool's key in the compiled-in list", "statement": "After the handshake the tool is approved if and only if the PEM text of its public key equals one of the compiled-in keys, including when the tool presents no certificate at all (not approved).", "quantifier": "every tool key (or none) and every compiled-in key list", "why_tests_cant": "depends on the client's certificate behaviour", "anchors": ["src/lve/mlle_lve_pubkey.c", "src/lve/mlle_ssl_lve.c:cert_verify_callback", "src/common/mlle_ssl.c:create_CTX"]}
{"id": "C13", "title": "A FILE request can only read files inside the library directory", "statement": "Whatever relative path a tool sends in a FILE request, the LVE only returns contents of files located below the library directory given in the LIB command.", "quantifier": "every path string and every file system tree", "why_tests_cant": "path strings are unbounded; escaping paths need special components", "anchors": ["src/lve/mlle_lve_file.c:mlle_lve_file", "doc/SEMLA.md"]}
{"id": "C14", "title": "A FILE reply is the whole file, decrypted when it is encrypted, or an error", "statement": "For an approved tool, a FILE request for an existing .moc file is answered with exactly the decryptor's plaintext, a request for any other existing file with exactly the bytes of that file, and a file that cannot be read or decrypted is answered with an ERROR reply that carries no file bytes.", "quantifier": "every path, every file content, every decryptor result", "why_tests_cant": "all contents and all failure positions", "anchors": ["src/lve/mlle_lve_file.c:mlle_lve_file", "src/common/mlle_io.c:mlle_io_read_file"]}
{"id": "C15", "title": "A library path is acknowledged only if the directory exists", "statement": "The LVE answers a LIB command with YES only if the directory exists and is readable, and otherwise with an ERROR reply.", "quantifier": "every path and every file system state", "why_tests_cant": "depends on the file system at run time", "anchors": ["src/lve/mlle_lve_libpath.c:mlle_lve_libpath", "src/lve/mlle_lve_libpath.c:validate_directory"]}
{"id": "C16", "title": "Library path normalisation keeps the directory and never empties it", "statement": "The stored library path is the path sent by the tool with trailing slashes and backslashes removed, never becomes empty for a non-empty input, and stays the same for the rest of the session.", "quantifier": "every path string, every later history", "why_tests_cant": "all strings, including those made only of slashes", "anchors": ["src/lve/mlle_lve_libpath.c:mlle_lve_libpath"]}
{"id": "C17", "title": "A feature is granted exactly when the licence manager grants it", "statement": "A FEATURE request is answered YES if and only if the licence manager could be set up and checked the feature out, with NO and the licence manager's message if the checkout was refused, and with error 7 if the licence manager could not be set up; a feature return is answered YES if and only if the licence manager accepted it.", "quantifier": "every feature name, every licence manager behaviour over time", "why_tests_cant": "the licence manager is an external, history-dependent service", "anchors": ["src/lve/mlle_lve_feature.c", "src/license_managers"]}
{"id": "C18", "title": "Licence-information requests get the documented replies", "statement": "LICENSE is answered with NOTSIMPLE, YES or NO and RETURNLICENSE with YES on success, as documented, so that the corresponding tool calls can succeed.", "quantifier": "every session history", "why_tests_cant": "the documented reply has to be compared for all states", "anchors": ["src/lve/mlle_lve_license.c", "src/tool/mlle_licensing.c:mlle_tool_returnlicense", "doc/SEMLA.md"]}
{"id": "C19", "title": "TOOLS is answered with the list of allowed tools", "statement": "A TOOLS request is answered with a TOOLLIST reply as documented.", "quantifier": "every session in which TOOLS is accepted", "why_tests_cant": "no test sends TOOLS", "anchors": ["src/lve/mlle_lve_tools.c", "doc/SEMLA.md"]}
{"id": "C20", "title": "With a library-wide licence feature, no file is served unless it was checked out", "statement": "If the LVE is built with a global licence feature, no file contents are ever sent in a session in which that feature could not be checked out when the library path was set.", "quantifier": "every history, every licence manager behaviour", "why_tests_cant": "all orders of commands after a failed checkout", "anchors": ["src/lve/mlle_lve_libpath.c:mlle_lve_libpath", "src/lve/mlle_lve_file.c"]}
{"id": "C21", "title": "Version negotiation agrees on both sides", "statement": "The LVE accepts a VERSION request if and only if the number is at least 1 and then answers VERSION 1, otherwise error 2 and stays at the start; the tool's version call succeeds if and only if the version in the reply lies in the range the caller gave.", "quantifier": "every number sent and every range", "why_tests_cant": "all integers and ranges", "anchors": ["src/lve/mlle_lve.c:mlle_lve_handle_command", "src/tool/mlle_licensing.c:mlle_tool_version"]}
{"id": "C22", "title": "Tool calls report success exactly on the documented reply and otherwise set an error", "statement": "Each tool API call returns success if and only if the LVE's reply was the documented positive one; on every failure it leaves a non-null error, and an ERROR reply's message is the one reported.", "quantifier": "every reply the LVE (or a broken peer) can send, every transport failure", "why_tests_cant": "all replies and failure points", "anchors": ["src/tool/mlle_licensing.c"]}
{"id": "C23", "title": "Reading file contents piecewise gives the file exactly once", "statement": "Whatever sequence of buffer sizes a caller uses, the bytes returned by successive read calls are the file contents in order, without gap or repetition; after the end every further call returns -1; the contents are released exactly once, even if the caller frees the handle in the middle.", "quantifier": "every file content, every sequence of requested sizes, every point where the handle is freed", "why_tests_cant": "sequences of sizes are unbounded; double free is silent", "anchors": ["src/tool/mlle_licensing.c:mlle_tool_read_bytes", "src/tool/mlle_licensing.c:mlle_file_contents_free"]}
{"id": "C24", "title": "A tool and an LVE stay in lock step for a whole session", "statement": "For every sequence of tool API calls executed against the LVE, every call terminates with the result that the LVE computed for that very call, and file calls return exactly the requested file's plaintext.", "quantifier": "every sequence of API calls with all arguments", "why_tests_cant": "sequences are unbounded; desynchronisation appears only after particular calls", "anchors": ["src/tool/mlle_licensing.c", "src/lve/mlle_lve.c", "src/common/mlle_utils.c"]}
{"id": "C25", "title": "Encryption of a library is undone by decryption", "statement": "If every Modelica file of a library is encrypted by the packaging tool's order (package.mo of each directory first), then each encrypted file decrypts to exactly its original bytes.", "quantifier": "every library tree (any depth, any contents), every key, mask and IV", "why_tests_cant": "trees and contents are unbounded; keys are random", "anchors": ["src/decryptors/default/src/mlle_cr_encrypt.c", "src/decryptors/default/src/mlle_cr_decrypt.c"]}
{"id": "C26", "title": "Files can be requested in any order", "statement": "The result of decrypting a file does not depend on which files were decrypted before it in the same session.", "quantifier": "every order of requests in a session", "why_tests_cant": "orders are factorial in number; the cache state differs for each", "anchors": ["src/decryptors/default/src/mlle_cr_decrypt.c:mlle_demask_key", "src/decryptors/default/src/mlle_cr_decrypt.c:mlle_store_keymask"]}
{"id": "C27", "title": "Encrypting in fixed-size chunks equals encrypting the whole file", "statement": "The encrypted file is the IV followed by the CBC encryption of the complete plaintext (plus the embedded mask for package files) followed by the MAC of IV and plaintext, for every file length, independently of how the file is read in chunks.", "quantifier": "every file length, in particular around multiples of the chunk and block sizes", "why_tests_cant": "off-by-one at chunk/block boundaries", "anchors": ["src/decryptors/default/src/mlle_cr_encrypt.c:mlle_cr_encrypt"]}
{"id": "C28", "title": "A tampered encrypted file is rejected", "statement": "Decryption returns plaintext only if the MAC stored at the end of the file equals the MAC computed over the IV and the recovered plaintext with the file's effective key; otherwise it returns failure and hands out no plaintext.", "quantifier": "every byte string offered as an encrypted file", "why_tests_cant": "all modifications of a file", "anchors": ["src/decryptors/default/src/mlle_cr_decrypt.c:mlle_cr_decrypt"]}
{"id": "C29", "title": "Decryption is memory safe for every file content", "statement": "Whatever bytes are stored in a .moc file and whatever (documented) relative path it has, decryption never accesses memory outside its buffers.", "quantifier": "every byte string as file content, every relative path", "why_tests_cant": "only short files or special paths trigger the fault", "anchors": ["src/decryptors/default/src/mlle_cr_decrypt.c"]}
{"id": "C30", "title": "Files in directories without package.mo survive encryption", "statement": "A Modelica file in a directory that has no package.mo decrypts to its original contents like any other file.", "quantifier": "every library tree with such a directory", "why_tests_cant": "the shipped test library has a package.mo everywhere", "anchors": ["src/decryptors/default/src/mlle_cr_decrypt.c:mlle_demask_key"]}
{"id": "C31", "title": "An empty package.mo does not make its directory undecryptable", "statement": "If a directory's package.mo is empty, the package.mo and all files in that directory still decrypt to their original contents.", "quantifier": "every library tree with an empty package.mo", "why_tests_cant": "edge content not in the test library", "anchors": ["src/decryptors/default/src/mlle_cr_decrypt.c"]}
{"id": "C32", "title": "Encrypting package.mo after other files of its directory is detected", "statement": "If a directory's package.mo is encrypted after another file of that directory was encrypted in the same run, the encryption fails instead of producing files that cannot be decrypted.", "quantifier": "every order of encryption calls", "why_tests_cant": "depends on the order and on the state of the mask table", "anchors": ["src/decryptors/default/src/mlle_cr_encrypt.c:mlle_mask_key"]}
{"id": "C33", "title": "Each package directory has its own key mask, known only through its package file", "statement": "The effective key of a file depends only on the product key and on the mask stored in the nearest enclosing package file; masks of other directories do not influence it.", "quantifier": "every library tree and every set of masks", "why_tests_cant": "all trees and masks", "anchors": ["src/decryptors/default/src/mlle_cr_encrypt.c:mlle_mask_key", "src/decryptors/default/src/mlle_cr_decrypt.c:mlle_demask_key"]}
{"id": "C34", "title": "Packaging arguments are accepted exactly when well formed", "statement": "The packaging tool accepts a command line if and only if it is a list of known options each given once with a non-empty value; the mandatory ones must be present; the value retrieved for an option is the one given.", "quantifier": "every argument vector", "why_tests_cant": "argument vectors are unbounded", "anchors": ["src/packagetool/arguments.c:validateArguments", "src/packagetool/arguments.c:getValueOf", "src/packagetool/arguments.c:validateMandatoryArguments"]}
{"id": "C35", "title": "The manifest is well-formed XML that carries the given values", "statement": "For every accepted set of values, the generated manifest is well-formed XML and reading it back gives exactly the given values, whatever characters they contain.", "quantifier": "every combination of present/absent options and every value string", "why_tests_cant": "value strings are unbounded and may contain markup characters", "anchors": ["src/packagetool/manifest.c"]}
{"id": "C36", "title": "Tool and dependency descriptions are copied completely into the manifest", "statement": "All lines of the tools file and of the dependencies file except the first one appear unchanged in the manifest.", "quantifier": "every file content", "why_tests_cant": "long lines and a missing final newline are not tested", "anchors": ["src/packagetool/manifest.c:copyFileInformation"]}
{"id": "C37", "title": "An encrypted archive contains no plaintext Modelica file", "statement": "When packaging with encryption, no archive entry is an unencrypted .mo file, and every archive entry is either a byte-for-byte copy of a non-Modelica file or the encryption of a Modelica file.", "quantifier": "every library tree", "why_tests_cant": "all trees, names and letter cases", "anchors": ["src/packagetool/utils.c:zipDirectoryLinux", "src/packagetool/utils.c:encryptDirectoryLinux", "src/packagetool/utils.c:isModelicaFile"]}
{"id": "C38", "title": "The archive contains every file of the library", "statement": "If packaging succeeds, every file of the source library is in the archive, either as it is or encrypted under its name with 'c' appended.", "quantifier": "every library tree and every pattern of I/O failures while copying", "why_tests_cant": "needs unusual letter case in names or I/O failures at particular files", "anchors": ["src/packagetool/utils.c:copyDirectoryLinux", "src/packagetool/utils.c:encryptDirectoryLinux", "src/packagetool/utils.c:zipDirectoryLinux", "src/packagetool/packagetool.c:doWork"]}
{"id": "C39", "title": "No copy of the library is left in the temporary folder", "statement": "Whenever the packaging tool ends after having started to copy the library, it has removed its temporary copy of the library.", "quantifier": "every phase at which packaging can fail", "why_tests_cant": "each failure point has to be forced", "anchors": ["src/packagetool/packagetool.c:doWork", "src/packagetool/utils.c:deleteTemporaryStagingFolder"]}
{"id": "C40", "title": "The icon path in the manifest is relative to the library's top-level directory", "statement": "The icon file attribute is the path of the icon relative to the top-level directory of the library.", "quantifier": "every icon location, every library name, every TMPDIR setting", "why_tests_cant": "depends on the environment and on directory contents", "anchors": ["src/packagetool/utils.c:cleanUpIconPath", "src/packagetool/manifest.c:addIcon", "doc/SEMLA.md"]}
{"id": "C41", "title": "The library id is the last component of the library path", "statement": "The library id in the manifest and the archive name are the last component of the given library path, with any number of trailing slashes.", "quantifier": "every library path string", "why_tests_cant": "all strings, including '/' and repeated slashes", "anchors": ["src/packagetool/arguments.c:getLibraryName", "src/packagetool/utils.c:validatePath"]}
{"id": "C42", "title": "Embedded keys are reproduced exactly", "statement": "The header generated for a key file initialises an array that, at run time, holds exactly the bytes of the file without carriage returns followed by a NUL, so that a key file with Windows line ends gives the same key as one with Unix line ends.", "quantifier": "every key file content", "why_tests_cant": "all byte strings", "anchors": ["src/embedfile/obfuscate_utils.c:create_header_file", "src/obfuscators/dummy"]}
{"id": "C43", "title": "Clearing an embedded key removes every key byte", "statement": "After the generated clear macro has run, no byte of the key file is left in the array.", "quantifier": "every key file content", "why_tests_cant": "left-over bytes are invisible functionally", "anchors": ["src/embedfile/obfuscate_utils.c:create_header_file"]}
{"id": "C44", "title": "The generated product key is 32 bytes long", "statement": "The key header generated by the random key tool declares a key of exactly 32 bytes whatever random bytes were drawn.", "quantifier": "every 32-byte random value", "why_tests_cant": "fails only for random keys containing a particular byte value", "anchors": ["src/embedfile/randomize_key.c", "src/embedfile/obfuscate_utils.c:create_header_file", "src/decryptors/default/src"]}
{"id": "C45", "title": "LVE command-line options are parsed safely", "statement": "For every argument vector the LVE's option parser either performs the requested action, or prints usage and fails; it never reads beyond the argument vector.", "quantifier": "every argument vector", "why_tests_cant": "argument vectors are unbounded", "anchors": ["src/lve/lve.c:main"]}
{"id": "C46", "title": "Error messages are kept up to a fixed length and freed once", "statement": "An error created with a formatted message reports the first 2047 characters of that message; freeing an error releases it and its whole chain of causes exactly once and leaves the handle null.", "quantifier": "every message length, every chain of causes", "why_tests_cant": "all lengths and chain depths", "anchors": ["src/common/mlle_error.c"]}
{"id": "C47", "title": "Protocol error texts always fit their buffers", "statement": "The texts describing an out-of-order command and an unexpected reply, including the list of expected commands, always fit the fixed-size buffers they are built in.", "quantifier": "every command and every protocol state; every set of expected commands the API uses", "why_tests_cant": "the longest combination has to be covered", "anchors": ["src/lve/mlle_protocol_lve_state.c:mlle_next_state", "src/tool/mlle_licensing.c:expect_commands"]}
{"id": "C48", "title": "The platform in the manifest is the one in the LVE's file name", "statement": "For each LVE shipped in an encrypted library, the manifest has exactly one executable element with the path and the platform of that LVE.", "quantifier": "every subset of LVE executables found", "why_tests_cant": "all subsets", "anchors": ["src/packagetool/manifest.c:addEncryption", "src/packagetool/manifest.c:extractPlatform", "src/packagetool/utils.c:copyLVE"]}
{"id": "C49", "title": "Message buffers are cleared before they are released", "statement": "When a received message is assembled from several pieces, the intermediate copies of the message are overwritten before their memory is returned to the heap, so that no decrypted traffic is left in freed memory.", "quantifier": "every sequence of piece sizes, retries and record contents", "why_tests_cant": "freed memory contents are not observable by a functional test, and the number of pieces depends on the record size and the TLS library", "anchors": ["src/common/mlle_ssl.c:ssl_read_message"]}
{"id": "C50", "title": "A rejected command line comes with a text that names the problem", "statement": "When a command line is rejected, the error buffer handed to the parser holds, cut to its size, a text that names the actual problem: no tokens, the unknown command word, the command with too many or too few arguments together with its expected form, the first argument that is not an integer, or the negative length.", "quantifier": "all byte strings, all error buffer sizes", "why_tests_cant": "The mapping from the reason to the text is over unboundedly many lines; a reason without text leaves the previous text in the caller's buffer, which looks like a plausible message in a test.", "anchors": ["src/common/mlle_parse_command.c:120-250"]}
{"id": "C51", "title": "Error objects are neither leaked nor used after release", "statement": "Any sequence of set, set_literal, free and propagate calls on error variables runs without touching released memory, and once every variable is empty again no memory is left allocated.", "quantifier": "every sequence of calls, every pattern of failing allocations", "why_tests_cant": "unbounded sequences and allocation failures; a leak has no visible effect", "anchors": ["src/common/mlle_error.c"]}
{"id": "C52", "title": "Refusals of out-of-order commands name the command and exactly the alternatives", "statement": "When a well-formed protocol command arrives at a point of the session where it is not allowed, the ERROR reply's text names that command and lists exactly the commands that are allowed at that point (each once, separated by commas), or says that the command can never be sent to the LVE if it is allowed nowhere.", "quantifier": "For all library states, all environments with enough memory, and all command lines that parse to a command not allowed in the current state.", "why_tests_cant": "The text is assembled in a fixed-size buffer from a state table; tests check individual texts, not that the list agrees with what the state machine accepts in every state.", "anchors": ["src/lve/mlle_protocol_lve_state.c:29-95", "src/lve/mlle_lve.c:191-217"]}
{"id": "C53", "title": "A tool reads from an encrypted library what the vendor put into it", "statement": "When a library is encrypted, installed, and then read by an approved tool through the LVE over TLS, every API call gets its own answer and each request for an encrypted file of the library returns exactly the contents the file had before encryption, whatever the order of the requests and whatever other calls are made between them.", "quantifier": "every library, every product key and random masks, every block cipher and MAC with the right sizes, every sequence of API calls, every cutting of messages into TLS records", "why_tests_cant": "composition of encryption, decryption caches, protocol and TLS framing over unbounded libraries and sessions", "anchors": ["src/decryptors/default/src/mlle_cr_encrypt.c", "src/decryptors/default/src/mlle_cr_decrypt.c", "src/lve/mlle_lve_file.c", "src/tool/mlle_licensing.c"]}
{"id": "C54", "title": "A packaged library gives its sources back to a licensed tool", "statement": "If a library is packaged with encryption and the archive is unpacked anywhere, then every Modelica file that belongs to a package can be read by a tool through an LVE, in any order and any number of times, with exactly its original contents.", "quantifier": "every library tree, unpacking directory, sequence of requests, key and random data", "why_tests_cant": "composes the whole pipeline copy, mask, encrypt, zip, unpack, transfer, decrypt, demask over all trees and request orders", "anchors": ["src/packagetool/packagetool.c:doWork", "src/packagetool/utils.c:encryptDirectoryLinux", "src/decryptors/default/src/mlle_cr_encrypt.c", "src/decryptors/default/src/mlle_cr_decrypt.c", "src/lve/mlle_lve.c"]}
{"id": "C55", "title": "The manifest in the archive says what the command line said", "statement": "If packaging succeeds, the archive holds .library/manifest.xml; it is well-formed XML in UTF-8 and reading it gives the name of the library and the values of the command line, and every executable it lists is in the archive.", "quantifier": "every library, command line and set of executables next to the program", "why_tests_cant": "depends on the escaping of arbitrary values and on what copying and zipping do with the files", "anchors": ["src/packagetool/manifest.c:createManifestFile", "src/packagetool/utils.c:copyLVE", "src/packagetool/utils.c:zipDirectoryLinux", "doc/SEMLA.md"]}
{"id": "C56", "title": "The key embedding program fails cleanly", "statement": "When the program that embeds key files is given wrong arguments or a key file that does not exist, cannot be read or is empty, or when the header cannot be written, it ends with exit code 1 and writes nothing.", "quantifier": "every argument list and every state of the file system", "why_tests_cant": "undefined behaviour in the error path depends on the platform; all argument lists", "anchors": ["src/embedfile/obfuscate.c:main", "src/embedfile/obfuscate.c:read_file"]}
{"id": "C57", "title": "Encrypting a library file by file equals encrypting it at once", "statement": "Running encrypt_file once for every file of a library, package files first, each in its own process that finds the masks in the files encrypted so far, succeeds every time and leaves on disk exactly the files that encrypting the whole library in one process gives; nothing else on the disk changes, and a run that cannot take the package masks into account fails.", "quantifier": "every library tree, keys, random data, contents of the disk", "why_tests_cant": "the state of one process is rebuilt by decrypting the output of the earlier ones; all trees and orders", "anchors": ["src/encrypt_decrypt/encrypt_file.c:main", "src/decryptors/default/src/mlle_cr_encrypt.c", "src/decryptors/default/src/mlle_cr_decrypt.c"]}
{"id": "C58", "title": "encrypt_file writes the file it is told to write and nothing else", "statement": "encrypt_file changes only the output file named on its command line; in particular the cleartext file is not changed. If it fails, no output is left; if it exits with 0 the output is the encrypted form of the cleartext.", "quantifier": "every argument list, disk and outcome of opening files", "why_tests_cant": "all names and argument lists, including a missing base directory", "anchors": ["src/encrypt_decrypt/encrypt_file.c:main"]}
{"id": "C59", "title": "decrypt_file writes authentic contents or nothing", "statement": "decrypt_file changes only its output file. It exits with 0 exactly if the output is written, and then the output is contents whose MAC under the key of this file is at the end of the encrypted file; otherwise it exits with 1 and leaves no output.", "quantifier": "every library, disk (with files damaged in any way), argument list", "why_tests_cant": "all ways in which an encrypted file may be damaged or forged", "anchors": ["src/encrypt_decrypt/decrypt_file.c:main", "src/decryptors/default/src/mlle_cr_decrypt.c:mlle_cr_decrypt"]}
{"id": "C60", "title": "decrypt_file gives back every file of an encrypted library", "statement": "For every file of an encrypted library, decrypt_file exits with 0 and writes the original contents, whatever their size.", "quantifier": "every library, file and size", "why_tests_cant": "fixed buffer sizes show only for files larger than any test file", "anchors": ["src/encrypt_decrypt/decrypt_file.c:main", "src/decryptors/default/src/mlle_cr_decrypt.c"]}
{"id": "C61", "title": "Encrypting one file of a library again keeps the library readable", "statement": "After encrypt_file has been run again for a file of an encrypted library with new contents, the library is encrypted correctly with the new contents: all its files can be decrypted.", "quantifier": "every library, file, new contents and random data", "why_tests_cant": "keys of files depend on the random masks in other files", "anchors": ["src/encrypt_decrypt/encrypt_file.c:main", "src/decryptors/default/src/mlle_cr_encrypt.c"]}
{"id": "C62", "title": "A connection is connected to the LVE that was started", "statement": "When mlle_start_executable returns a connection, the LVE process runs, its standard input is the pipe to which the tool writes and its standard output the pipe from which the tool reads; both pipes are new and the tool's other descriptors are unchanged.", "quantifier": "every history of starts, frees, ends of LVEs and files opened or closed by the tool, every descriptor table and every failure of a system call", "why_tests_cant": "depends on which descriptors the embedding program has open or closed at the time of the call", "anchors": ["src/tool/mlle_spawn_posix.c:mlle_spawn", "src/tool/mlle_licensing.c:mlle_start_executable"]}
{"id": "C63", "title": "Freed connections leave no descriptors behind", "statement": "After a connection has been freed, the tool has the same open descriptors as before the LVE was started; any number of LVEs can be started one after the other.", "quantifier": "every history and limit of descriptors", "why_tests_cant": "a leak of one descriptor shows only after as many starts as the limit allows", "anchors": ["src/tool/mlle_spawn_posix.c:mlle_spawn", "src/tool/mlle_licensing.c:mlle_connections_free"]}
{"id": "C64", "title": "The tool notices that an LVE has ended", "statement": "When an LVE has ended, writing to its connection fails and reading from its connection reports the end of the data.", "quantifier": "every history of starts, frees and ends", "why_tests_cant": "needs an LVE that dies at an arbitrary point, with other LVEs running", "anchors": ["src/tool/mlle_spawn_posix.c:mlle_spawn", "src/common/mlle_io.c"]}
{"id": "C65", "title": "LVEs do not outlive the tool", "statement": "When the tool ends without freeing its connections, as long as LVEs are left one of them sees the end of its input, so that all end one after the other.", "quantifier": "every history, every set and order of LVEs that end", "why_tests_cant": "later LVEs inherit descriptors of earlier ones; the order of their ends matters", "anchors": ["src/tool/mlle_spawn_posix.c:mlle_spawn"]}
{"id": "C66", "title": "Freeing a connection closes the input of the LVE", "statement": "After mlle_connections_free no process holds the write end of the pipe to that LVE, so that the LVE sees the end of its input and ends.", "quantifier": "every history with any number of LVEs", "why_tests_cant": "with one LVE at a time it holds; it depends on LVEs started between start and free", "anchors": ["src/tool/mlle_spawn_posix.c:mlle_spawn", "src/tool/mlle_licensing.c:mlle_connections_free"]}
{"id": "C67", "title": "An LVE serves files only over a completed handshake with a listed key", "statement": "Whatever certificate (or none) the other side presents and whatever it sends: the LVE opens files and sends file contents only if the TLS handshake was completed with a certificate whose RSA key is compiled into the LVE; nothing is read or sent before the handshake is completed.", "quantifier": "every behaviour of the other side, every failure of OpenSSL calls, every session", "why_tests_cant": "the space of certificates, requests and failures is unbounded", "anchors": ["src/lve/mlle_ssl_lve.c:cert_verify_callback", "src/lve/mlle_ssl_lve.c:lve_perform_handshake", "src/lve/mlle_lve_pubkey.c:validate", "src/lve/lve.c:main"]}
{"id": "C68", "title": "Private keys are cleared from the stack whatever fails", "statement": "When ssl_setup_tool or ssl_setup_lve returns, no byte of the private key is left in the array that held it, on every path of success and failure.", "quantifier": "every key file and every combination of failing OpenSSL calls", "why_tests_cant": "needs every failure path and inspection of dead stack memory", "anchors": ["src/tool/mlle_ssl_tool.c:ssl_setup_tool", "src/lve/mlle_ssl_lve.c:ssl_setup_lve", "src/embedfile/obfuscate_utils.c"]}
{"id": "C69", "title": "An LVE that cannot serve ends cleanly", "statement": "If TLS cannot be set up or the handshake fails, the LVE ends without serving anything and without undefined behaviour.", "quantifier": "every failure of OpenSSL calls, every behaviour of the other side", "why_tests_cant": "setup failures cannot be provoked from outside", "anchors": ["src/lve/lve.c:main", "src/lve/mlle_lve.c:mlle_lve_shutdown", "src/lve/mlle_ssl_lve.c:ssl_setup_lve"]}
{"id": "C70", "title": "Freeing a connection releases all that was set up for it", "statement": "mlle_connections_free releases every OpenSSL object made for the connection exactly once; in particular no copy of the tool's private key stays in memory.", "quantifier": "every combination of failing OpenSSL calls", "why_tests_cant": "leaks and remaining keys are not visible in results", "anchors": ["src/tool/mlle_licensing.c:mlle_connections_free", "src/tool/mlle_ssl_tool.c:ssl_setup_tool", "src/common/mlle_ssl.c:create_CTX", "src/common/mlle_ssl.c:generate_X509"]}
{"id": "C71", "title": "A failed start comes with exactly one error", "statement": "mlle_start_executable returns NULL if and only if it sets an error, and sets at most one.", "quantifier": "every combination of failing calls", "why_tests_cant": "each failure path must be exercised", "anchors": ["src/tool/mlle_licensing.c:mlle_start_executable", "src/tool/mlle_ssl_tool.c:ssl_setup_tool", "src/tool/mlle_ssl_tool.c:tool_perform_handshake"]}
{"id": "C72", "title": "Files are copied exactly or the packaging tool fails", "statement": "When packagetool copies a file of the library the copy has exactly the bytes of the original, or the copy fails and the tool does not report success; so every entry of the archive is a file of the library, unchanged or encrypted.", "quantifier": "every file content, every combination of failing or short reads and writes, every library", "why_tests_cant": "short reads and writes do not occur on the file systems used by tests", "anchors": ["src/packagetool/utils.c:copyFile", "src/packagetool/utils.c:copyDirectoryLinux"]}
{"id": "C73", "title": "The help text lists the accepted options and keeps to the width of the terminal", "statement": "packagetool --help prints every option the tool accepts and no other; descriptions of any length are printed word by word in order, indented, with breaks only between words and only where the next word does not fit, in at most 80 columns.", "quantifier": "every text, every width, every indentation, every option name", "why_tests_cant": "a test looks at one text; wrapping errors depend on word lengths", "anchors": ["src/packagetool/arguments.c:printAligned", "src/packagetool/arguments.c:printTabs", "src/packagetool/arguments.c:printArgumentHelp", "src/packagetool/arguments.c:validateArguments"]}
{"id": "C74", "title": "Exit code 0 of packagetool means an archive was made", "statement": "If packagetool is given options and values and exits with 0, then the arguments were accepted and an archive was written.", "quantifier": "every command line, every library, every failure of the system", "why_tests_cant": "ranges over all command lines and failures", "anchors": ["src/packagetool/packagetool.c:doWork", "src/packagetool/packagetool.c:main", "src/packagetool/arguments.c:helpRequested"]}
{"id": "C75", "title": "Starting an LVE on Windows leaves the tool's standard streams alone", "statement": "After mlle_spawn has returned on Windows, with or without a connection, the standard input and output of the tool refer to what they referred to before.", "quantifier": "every table of descriptors, every history, every combination of failing calls", "why_tests_cant": "needs every failure point of a sequence of ten system calls, and programs with and without console", "anchors": ["src/tool/mlle_spawn_windows.c:mlle_spawn"]}
{"id": "C76", "title": "A connection on Windows is connected to the LVE that was started", "statement": "When mlle_spawn gives a connection on Windows, the standard input and output of the new process are the other ends of two new pipes, and it gets no end of the pipes of other connections.", "quantifier": "every history of starts, frees, ends and files opened by the tool", "why_tests_cant": "ranges over all histories and tables of descriptors", "anchors": ["src/tool/mlle_spawn_windows.c:mlle_spawn"]}
{"id": "C77", "title": "On Windows ends of LVEs are noticed and freed connections leave nothing", "statement": "When an LVE has ended, reading and writing on its connection reports it; freeing a connection closes the input of its LVE whatever other LVEs run, and leaves no descriptor behind.", "quantifier": "every history of starts, frees and ends", "why_tests_cant": "needs LVEs that die at arbitrary points while others run, on another platform", "anchors": ["src/tool/mlle_spawn_windows.c:mlle_spawn", "src/tool/mlle_licensing.c:mlle_connections_free"]}
{"id": "C78", "title": "On Windows the icon file of a library is found", "statement": "Packaging with -icon finds the file of that name wherever it is in the library; if there is none packaging fails.", "quantifier": "every library, every order in which directories are listed", "why_tests_cant": "depends on the order of directory listings and on a folder the tool itself makes; the tests run on Linux", "anchors": ["src/packagetool/utils.c:findFileWin32", "src/packagetool/utils.c:locateIconFile"]}
{"id": "C79", "title": "On Windows the archive holds the files of the library", "statement": "If nothing fails, an archive is made whatever the library looks like; it holds exactly the files that belong there (not the Modelica code of an encrypted library), each once, with the names used on other platforms; a failure is reported.", "quantifier": "every staged library, every previous archive, every failure of the operating system", "why_tests_cant": "quantifies over directory trees and over failures of the operating system", "anchors": ["src/packagetool/utils.c:zipDirectoryWin32", "src/packagetool/utils.c:createZipArchive"]}
{"id": "C80", "title": "On Windows a copied library is complete or a failure is reported", "statement": "If nothing fails, the copy has exactly the files and folders of the library, apart from .library; if something could not be copied, the tool says so and stops.", "quantifier": "every library, every failure of a call", "why_tests_cant": "needs failures of reading, writing and listing at arbitrary places of arbitrary trees", "anchors": ["src/packagetool/utils.c:copyDirectoryWin32"]}
{"id": "C81", "title": "On Windows success of the removal means that the staging folder is gone", "statement": "deleteTemporaryStagingFolder reports success if and only if nothing of the staged library (with its source code) is left; nothing that was not there appears.", "quantifier": "every staging folder, every failure of listing and removal", "why_tests_cant": "needs files in use at arbitrary places", "anchors": ["src/packagetool/utils.c:removeFolderWindows", "src/packagetool/utils.c:deleteTemporaryStagingFolder"]}
{"id": "C82", "title": "Libraries are encrypted on Windows as elsewhere", "statement": "For the same library and the same random data, encryption on Windows and on Linux gives the same result and the same files, byte for byte.", "quantifier": "every library, every product key, all random data and failures of encryption", "why_tests_cant": "needs two platforms with the same random numbers", "anchors": ["src/packagetool/utils.c:encryptDirectoryWin32", "src/packagetool/utils.c:encryptFile", "src/decryptors/default/src/mlle_cr_encrypt.c:mlle_mask_key"]}
{"id": "C83", "title": "The random key program never makes a header without a drawn key", "statement": "randomize_key ends with exit code 0 exactly if it has two arguments, random bytes could be drawn and the header could be opened; the header then holds the drawn key. In all other cases the exit code is 1 and nothing is written.", "quantifier": "every argument list, every result of the random number generator, every state of the file system", "why_tests_cant": "failures of the random number generator cannot be provoked; all argument lists", "anchors": ["src/embedfile/randomize_key.c:main", "src/embedfile/randomize_key.c:generate_random_bytes", "src/embedfile/obfuscate_utils.c:create_header_file"]}
{"id": "C84", "title": "A tool without entitlement learns nothing about the vendor's library", "statement": "Two machines that differ only in the files of the library, in which of them exist and in what decryption makes of them are indistinguishable for a tool whose key is not compiled in, and for every tool while the library-wide licence is refused: the LVE performs the same actions, sends the same replies and ends in the same way. (Full claim: also directories outside the library are not disclosed.)", "quantifier": "all pairs of machines, all sequences of records, all keys, all licence managers and memory conditions", "why_tests_cant": "a statement about pairs of executions; tests run one at a time and cannot vary all secrets", "anchors": ["src/lve/mlle_lve.c:mlle_lve_handle_command", "src/lve/mlle_lve_file.c:mlle_lve_file", "src/lve/mlle_lve_libpath.c:mlle_lve_libpath", "src/lve/mlle_lve_libpath.c:validate_directory", "src/lve/mlle_lve_pubkey.c:mlle_lve_validate_pubkey"]}
{"id": "C85", "title": "Licences are taken only for tools that may use the library", "statement": "For a tool whose key is not compiled in, the LVE checks no feature out: neither the library-wide one nor one the tool asks for.", "quantifier": "all sequences of records, all keys that are not listed, all licence managers", "why_tests_cant": "all histories; the absence of an action", "anchors": ["src/lve/mlle_lve_feature.c:mlle_lve_feature", "src/lve/mlle_lve_libpath.c:mlle_lve_libpath"]}
{"id": "C86", "title": "A tool's feature call succeeds exactly when the licence manager grants the feature", "statement": "After a version and a library path have been exchanged, and after any other calls, mlle_tool_feature returns success exactly if the licence manager grants exactly this feature; the manager is asked once, and its refusal text reaches the tool. With the manager delivered for tests, exactly the feature test_licensed_feature is granted, and a library that needs another feature gives no file to anybody.", "quantifier": "all call sequences in between, all feature names and paths that fit a record, all keys, all licence managers, all ways TLS cuts messages", "why_tests_cant": "composition of two programs over all intermediate calls", "anchors": ["src/tool/mlle_licensing.c:mlle_tool_feature", "src/lve/mlle_lve_feature.c:mlle_lve_feature", "src/license_managers/testingdummy/src/mlle_license_manager.c"]}
{"id": "C87", "title": "The LVE uses memory and file streams properly and does not accumulate them", "statement": "Over a whole session, whatever a tool sends, no block is freed twice, used after it was freed, or freed without having been allocated, and the same holds for file streams; what is held at any moment is bounded independently of the number of requests; at the end everything is given back.", "quantifier": "all sessions of any length, all ways TLS cuts messages, all file systems, licence managers and memory conditions", "why_tests_cant": "double frees and leaks depend on the failing path of each of many calls in every order; bounds for sessions of any length", "anchors": ["src/lve/mlle_lve.c:mlle_lve_receive", "src/lve/mlle_lve.c:mlle_lve_handle_command", "src/lve/mlle_lve.c:mlle_lve_shutdown", "src/lve/mlle_lve_libpath.c", "src/lve/mlle_lve_feature.c", "src/lve/mlle_lve_file.c", "src/common/mlle_io.c:mlle_io_read_file", "src/common/mlle_ssl.c:ssl_read_message"]}
{"id": "C88", "title": "Calls of the tool library leave no memory behind", "statement": "Whatever an LVE answers, a call that returns frees nothing twice and uses nothing it has freed, and once the caller has freed the error and the file contents it was handed, the memory in use is what it was before the call.", "quantifier": "all sequences of calls, all replies, all cuts of replies into records, all memory conditions", "why_tests_cant": "all sequences of calls and replies; leaks have no visible effect in a test", "anchors": ["src/common/mlle_utils.c:mlle_read_command", "src/tool/mlle_licensing.c:mlle_expect_command", "src/tool/mlle_licensing.c:mlle_expect_commands", "src/tool/mlle_licensing.c:mlle_tool_file", "src/tool/mlle_licensing.c:mlle_file_contents_free"]}
{"id": "C89", "title": "The stack needed to decrypt a file is bounded by the depth of the library", "statement": "Decrypting a requested file nests calls of the decryptor at most as deep as the directory of the file in the library, whatever path the tool requested it with, so that no request can exhaust the stack of the LVE.", "quantifier": "all libraries, disks, cached masks, requested paths and file contents", "why_tests_cant": "the nesting depends on the spelling of the path and on what was requested before; a test sees a crash only with a particular stack size", "anchors": ["src/decryptors/default/src/mlle_cr_decrypt.c:mlle_demask_key", "src/decryptors/default/src/mlle_cr_decrypt.c:mlle_cr_decrypt", "src/common/mlle_error.h:MLLE_LONG_FILE_NAME_MAX"]}
{"id": "C90", "title": "A file of an encrypted library can be requested under every name the file system has for it", "statement": "If the file system takes two paths for the same file, the LVE delivers the same plaintext for both, in any order and mixture of spellings.", "quantifier": "all libraries, all sequences of requests in all spellings", "why_tests_cant": "masks are cached under the spelling of the path; all interleavings of spellings and of package files read before", "anchors": ["src/decryptors/default/src/mlle_cr_decrypt.c:mlle_demask_key", "src/decryptors/default/src/mlle_cr_decrypt.c:mlle_store_keymask"]}
{"id": "C91", "title": "On Windows files are read whatever the length of their path", "statement": "A file in the file system is read completely by the LVE on Windows, with either kind of separator in its path and also if the path is longer than the C runtime opens directly; for other paths an error is reported. No stream is left open, and no path reads or writes outside the buffer for the rewritten path.", "quantifier": "all paths, all contents, all file systems and failures of the runtime", "why_tests_cant": "the tests run on Linux; the result depends on the length of the path, both fopen calls, stat failing with the prefix, and the size of the file", "anchors": ["src/common/mlle_io.c:mlle_io_read_file"]}
{"id": "C92", "title": "Failures of the system while decrypting do no harm", "statement": "Whichever calls of malloc, calloc, fopen, stat, fread and OpenSSL fail while files of an installed library are requested from the default decryptor: every answer is the contents of the file or a failure, never other bytes; the process does not crash; nothing is freed twice or used after it was freed; what was obtained is given back at the end; and once calls succeed again every request in the same context is answered correctly. If no call fails, the answers are those of C25-C33.", "quantifier": "all sets of failing calls, all libraries, all sequences of requests", "why_tests_cant": "the number of ways in which calls can fail grows exponentially with the requests; the effects of a failure appear in later requests through the cache of masks", "anchors": ["src/decryptors/default/src/mlle_cr_decrypt.c:mlle_cr_decrypt", "src/decryptors/default/src/mlle_cr_decrypt.c:mlle_demask_key", "src/decryptors/default/src/mlle_cr_decrypt.c:mlle_store_keymask", "src/common/mlle_io.c:mlle_io_read_file"]}
{"id": "C93", "title": "Failures of the system while encrypting do no harm", "statement": "Whichever calls of the system fail while a library is encrypted (allocation, random numbers, OpenSSL, reading, writing): memory is used properly and given back, encryption reports success only if every file was encrypted completely with fresh random numbers, otherwise it reports failure, and it can be tried again.", "quantifier": "every library, product key and set of failing calls, all old contents of memory", "why_tests_cant": "failures of single calls, in all combinations, cannot be provoked by unit tests; a random number that is not random looks like one", "anchors": ["src/decryptors/default/src/mlle_cr_encrypt.c:mlle_cr_encrypt", "src/decryptors/default/src/mlle_cr_encrypt.c:mlle_mask_key"]}
{"id": "C94", "title": "An encrypted file is served only as the file it was made from", "statement": "If an encrypted file is put in the place of another one of the same library, of another library of the vendor, or of another vendor, a request for the file it replaces is refused.", "quantifier": "every library, product key, file, replacing encrypted file, and sequence of earlier requests", "why_tests_cant": "the answer depends on which keys coincide over all directory trees and pairs of files; tests of the decryptor only damage single bytes", "anchors": ["src/decryptors/default/src/mlle_cr_decrypt.c:mlle_cr_decrypt", "src/decryptors/default/src/mlle_cr_encrypt.c:mlle_cr_encrypt"]}
{"id": "C95", "title": "The tool survives LVEs that end", "statement": "An LVE may end at any moment. Then the calls of the tool on its connection return (an error, unless the reply had been written), mlle_start_executable returns NULL if the LVE ends before it has answered, and mlle_connections_free gives back the descriptors; the tool is neither terminated nor does it wait for ever, and connections to other LVEs are not affected.", "quantifier": "every history of starts, frees and ends of LVEs, every call with requests and replies of any number of records, every interleaving of the tool's system calls with what the LVEs do", "why_tests_cant": "the result depends on which processes hold the ends of the pipes at each moment and on when the LVE ends between two system calls; tests run with an LVE that answers", "anchors": ["src/tool/mlle_licensing.c:48-98", "src/tool/mlle_licensing.c:199-422", "src/tool/mlle_ssl_tool.c:135-159", "src/common/mlle_ssl.c:264-410", "src/common/mlle_utils.c:84-172", "src/tool/mlle_spawn_posix.c:40-112"]}
{"id": "C96", "title": "On Windows a packaged library is complete, concealed and can be read", "statement": "If the packaging tool reports success on Windows, there is a new archive with the name of the library that holds every file of the library (as it is without encryption, encrypted for Modelica files with encryption) and nothing but files of the library and the tool's own; no Modelica file is in clear text in it if encryption was asked for; and unpacked anywhere, every file of a package is given back by the decryptor of the LVE, for requests in any order. If nothing fails in the system, packaging succeeds.", "quantifier": "every command line, directory tree, system state, product key, order of directory listings and sequence of requests", "why_tests_cant": "the result depends on the tree, on the order in which Windows lists it and on what was in the working directory; tests package one small library, mostly on Linux", "anchors": ["src/packagetool/packagetool.c:doWork", "src/packagetool/utils.c:copyDirectoryWin32", "src/packagetool/utils.c:zipDirectoryWin32", "src/packagetool/utils.c:encryptFilesWin32", "src/packagetool/arguments.c:getLibraryName"]}
{"id": "C97", "title": "On Windows the manifest says what was asked for, and the icon can be used", "statement": "If the packaging tool reports success on Windows, the archive holds a well-formed manifest that states the arguments, the LVEs in the archive and, if an icon was given, the path of the icon relative to the library. A library that contains its icon can be packaged with it, whatever the order of directory listings and the environment.", "quantifier": "every command line, directory tree, system state, environment and order of directory listings", "why_tests_cant": "the search for the icon depends on the order of listings, which differs between file systems, and on environment variables", "anchors": ["src/packagetool/utils.c:prepareIconFile", "src/packagetool/utils.c:cleanUpIconPath", "src/packagetool/utils.c:getTempDirWin32", "src/packagetool/manifest.c:createManifestFile"]}
{"id": "C98", "title": "Packaging succeeds when nothing fails", "statement": "If the library to package exists, the files given as options exist, names are short and no call of the system fails, the packaging tool ends with code 0, leaves a complete archive and no temporary folder; with encryption the archive, unpacked anywhere, decrypts to the Modelica files of the library.", "quantifier": "every library, command line, system state without failures, order of directory listings, key and sequence of decryption requests", "why_tests_cant": "success has to hold for every shape of library: names and nesting of files and folders interact with the renaming done by encryption, and a test only covers the libraries it was written for", "anchors": ["src/packagetool/packagetool.c:main", "src/packagetool/utils.c:encryptFile", "src/packagetool/utils.c:encryptDirectory", "src/packagetool/utils.c:copyDirectory", "src/packagetool/manifest.c:createManifestFile"]}
{"id": "C99", "title": "The debug log gives nothing away", "statement": "Whether debug output is written (to the file named by SEMLA_LVE_LOG_FILE in the LVE, to stderr in the programs that encrypt) changes no answer and no encrypted file, and what is written depends only on the names of the files: not on the product key, the masks, the contents of files or where the library is.", "quantifier": "every pair of libraries with files of the same names, every key, cipher, place, sequence of requests, and for the form of the lines every disk and request", "why_tests_cant": "that two runs cannot be told apart is a statement about all pairs of runs; a test sees one log at a time, and a key in it looks like any other text", "anchors": ["src/common/mlle_io.c:mlle_log_open", "src/decryptors/default/src/mlle_cr_decrypt.c:mlle_debug_log_key", "src/decryptors/default/src/mlle_cr_decrypt.c:mlle_cr_decrypt", "src/decryptors/default/src/mlle_cr_encrypt.c:mlle_cr_encrypt", "src/decryptors/default/src/mlle_cr_decrypt.c:mlle_demask_key"]}
{"id": "C100", "title": "Version information is JSON", "statement": "What the LVE prints for --version is a JSON text: an object with the name, the version and, if known, the list of tools.", "quantifier": "every name, version and list of tools an LVE can be built with", "why_tests_cant": "a test sees the text of one build; the claim is about the grammar of JSON and all builds", "anchors": ["src/lve/lve.c:print_version", "src/CMakeLists.txt:TOOLS_LIST_JSON_STRING"]}
{"id": "C101", "title": "A failed handshake is reported with its reason", "statement": "If the TLS handshake with an LVE fails, the error of mlle_start_executable says so and gives the reason OpenSSL noted.", "quantifier": "every code of SSL_get_error and every queue of errors, also the empty one", "why_tests_cant": "an empty queue depends on how the other side goes away, and a message made from uninitialised memory looks different every time", "anchors": ["src/common/mlle_ssl.c:ssl_get_error_string", "src/tool/mlle_ssl_tool.c:tool_perform_handshake", "src/tool/mlle_licensing.c:mlle_start_executable"]}
{"id": "C102", "title": "A library that is packaged reaches the tools of its users", "statement": "If no system call fails, packaging a library with encryption succeeds; a tool with a listed key that opens the unpacked archive (and gets the library's licence) has all its calls answered, gets the sources of the Modelica files as the vendor wrote them and the other files as they are.", "quantifier": "every library, command line and installation that can be packaged, every directory the archive is unpacked in, every sequence of calls of the tool", "why_tests_cant": "spans three programs and all libraries; a test packs one library and reads a few files", "anchors": ["src/packagetool/packagetool.c:doWork", "src/lve/mlle_lve.c:mlle_lve_receive", "src/lve/mlle_lve_file.c:mlle_lve_file", "src/tool/mlle_licensing.c:mlle_libpath"]}
{"id": "C103", "title": "LVEs that have ended leave no processes behind", "statement": "After an LVE has ended and its connection has been freed nothing of it is left in the table of processes, so that a tool can start LVEs again and again.", "quantifier": "every history of starts, frees and ends of LVEs, every limit of processes", "why_tests_cant": "the entries of ended processes are noticed only after as many starts as the system permits processes", "anchors": ["src/tool/mlle_spawn_posix.c:mlle_spawn", "src/tool/mlle_licensing.c:mlle_connections_free", "src/tool/mlle_types.h:mlle_connections"]}
{"id": "C104", "title": "A run of the packaging tool leaves a complete archive or the one that was there", "statement": "After a run of packagetool there is, under the name of the archive, either a readable archive with every file of the library (and the exit code is 0), or what was there before (and it is not 0).", "quantifier": "every command line, every library, every failure of the system, every earlier archive", "why_tests_cant": "full disks and failures while the archive is finished occur at any point of a run", "anchors": ["src/packagetool/utils.c:createZipArchive", "src/packagetool/utils.c:openZipArchive", "src/packagetool/utils.c:closeZipArchive", "src/packagetool/utils.c:zipDirectoryLinux"]}
{"id": "C105", "title": "A reply that can be read is read, and one that cannot is reported with the reason", "statement": "While the connection to an LVE is all right, a call of the tool library gets the reply of the LVE to its own request, also if signals interrupt the reading. If the reply cannot be read the error of the call has a text that gives the reason of this failure. What has happened on other connections makes no difference.", "quantifier": "every history of starts, frees, sent messages and calls on any connections, every call, every sequence of pieces, interruptions and failures while a reply is read, every error OpenSSL raises", "why_tests_cant": "the result depends on errors that earlier, unrelated operations left in OpenSSL's per-thread queue and on a signal arriving in the middle of a call", "anchors": ["src/common/mlle_ssl.c:309-450", "src/common/mlle_utils.c:84-113", "src/tool/mlle_licensing.c:48-98", "src/tool/mlle_ssl_tool.c:135-159"]}
{"id": "C106", "title": "An LVE that a tool starts serves the tool", "statement": "An LVE that is started by mlle_start_executable gets no options and goes on to the handshake, whatever the directory its library is installed in.", "quantifier": "every path of an LVE, both attempts to start it, every table of descriptors and every history of the tool", "why_tests_cant": "tests run in a directory of their own; how the runtime packs and splits the command line matters only for paths with spaces, of which there are unboundedly many forms", "anchors": ["src/tool/mlle_spawn_windows.c:127-153", "src/tool/mlle_spawn_posix.c:95", "src/lve/lve.c:200-278"]}
{"id": "C107", "title": "The LVE answers as the specification of the protocol says", "statement": "Each reply of an LVE is one that doc/SEMLA.md gives for the request that it answers: YES to LIB, FEATURE, LICENSE, RETURNFEATURE and RETURNLICENSE, NO to FEATURE, LICENSE and VERSION, NOTSIMPLE to LICENSE only, FILECONT to FILE, TOOLLIST to TOOLS, TEXT to LICENSEINFO, VERSION to VERSION, and ERROR with codes 1, 6, 7, 8 at any time, 2 only after VERSION, 3 only after FEATURE or LICENSE, 4 only after FILE or LIB, 5 only after FILE; general information can be queried at any time; a file that does not exist is answered with code 4.", "quantifier": "all sessions: all keys of the tool, all sequences of records, all answers of the operating system, the decryptor and the licence manager, including sessions that end in a crash", "why_tests_cant": "the error code that FILE is answered with is kept in the state from earlier requests, so which codes can occur depends on the whole history; tests try single histories", "anchors": ["doc/SEMLA.md:425-545", "src/lve/mlle_lve.c:59-217", "src/lve/mlle_lve_file.c:27-122", "src/lve/mlle_lve_libpath.c:56-159", "src/lve/mlle_lve_tools.c:24-32", "src/lve/mlle_lve_license.c:30-45"]}
{"id": "C108", "title": "Packaged files keep their permissions", "statement": "Files of a library have the same permissions when they are packaged as in the library, encrypted files those of new files; an LVE from an archive can be run by whoever could run the one next to packagetool, so the tool library can start it, whatever platform the library was packaged on; permissions of files that are in the library make packagetool fail at most with a message.", "quantifier": "all libraries (trees of any depth, all modes and contents), all LVEs and extra files, all users and file mode creation masks, all names of entries of an archive", "why_tests_cant": "tests run with one mask and one set of modes, on one platform; the failure needs an archive made on Windows and unpacked on Linux, or a read-only file left in the library", "anchors": ["src/packagetool/utils.c:442-471", "src/packagetool/utils.c:1009-1094", "src/packagetool/utils.c:1273-1307", "src/packagetool/utils.c:1476-1478", "src/packagetool/utils.c:2037-2113", "ThirdParty/miniz/miniz.c:4177-4196", "ThirdParty/miniz/miniz.c:4263-4312", "src/tool/mlle_spawn_posix.c:49-58"]}
{"id": "C109", "title": "The manifest has the documented structure", "statement": "The manifest of a packaged library has only the elements and attributes that doc/SEMLA.md lists, at the places that it gives, and all mandatory ones; its executables are for documented platforms, not two different ones for the same platform; the files for tools and dependencies can be written as in the documentation.", "quantifier": "all accepted command lines with values that can be written in XML, all lists of LVEs that are present, all files of tools and dependencies", "why_tests_cant": "the structure depends on which of the options are given and on the contents of foreign files; tests compare a few manifests that were made by packagetool itself", "anchors": ["doc/SEMLA.md:148-192", "doc/SEMLA.md:241-260", "doc/SEMLA.md:584-640", "src/packagetool/manifest.c:361-396", "src/packagetool/utils.c:60"]}
{"id": "C110", "title": "Licences are given back", "statement": "An LVE makes at most one licence manager at a time, for the library that the tool has named, uses it only while it exists, and frees it exactly once before it ends, so that no feature stays checked out, however the tool or the user of the LVE ends.", "quantifier": "all sessions of any length with any records, all answers of the system and of the licence manager, all moments at which the tool goes away, all command lines that check a feature out", "why_tests_cant": "tests end sessions in the intended way; what happens to licences if the tool is ended in the middle of a request depends on the moment and on signals", "anchors": ["src/lve/mlle_lve.c:191-262", "src/lve/mlle_lve_feature.c:29-106", "src/lve/mlle_lve_libpath.c:63-118", "src/lve/lve.c:85-198", "src/lve/lve.c:281-297", "src/license_managers/include/mlle_license_manager.h:42-60"]}
{"id": "C111", "title": "asprintf() on Windows is that of Linux", "statement": "In builds with Microsoft's compiler, where asprintf() is part of the sources, it returns the formatted text in a new block of exactly its size, with its length as the result; it returns -1 and leaves the pointer and the memory as they were if there is no memory or formatting fails; it never writes outside the block.", "quantifier": "all texts of any length, all heaps, all outcomes of malloc and of formatting, also arguments that give another text the second time they are formatted", "why_tests_cant": "the tests run on Linux use the C library's function; failures of malloc and texts of extreme length do not occur in tests", "anchors": ["src/common/asprintf.c:41-66", "src/common/asprintf.h:36-54", "src/lve/lve.c:107-112", "src/lve/lve.c:141-147"]}
{"id": "C112", "title": "packagetool keeps its list of LVEs properly", "statement": "packagetool uses the list of the LVEs it has copied only while it is allocated, lists in the manifest exactly the LVEs that are there, and gives all memory of the list back at the end; its functions can be called again or cleaned up after a failure.", "quantifier": "all subsets of LVEs that are there, all outcomes of malloc, of copying and of the other steps, with and without encryption, lists of names of any length", "why_tests_cant": "tests have one set of LVEs and no failures of malloc; lost and freed blocks are not visible in results", "anchors": ["src/packagetool/utils.c:60-66", "src/packagetool/utils.c:94-112", "src/packagetool/utils.c:477-551", "src/packagetool/manifest.c:299-340", "src/packagetool/packagetool.c:96-143"]}
