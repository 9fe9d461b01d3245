{
 "claims": [
  {
   "property": "C01",
   "status": "proved",
   "theorems": [
    "C01_accepts_iff_grammar",
    "C01_rejects_with_the_reason",
    "C01_one_meaning",
    "C01_length_range"
   ],
   "note": "for every byte string; note that characters after the digits of a field are ignored (sscanf), which the grammar states"
  },
  {
   "property": "C02",
   "status": "partial",
   "theorems": [
    "C02_reader_returns_what_was_sent",
    "C02_lve_one_record",
    "C02_lve_cut_refuted"
   ],
   "note": "Tool side: every split into records after the header. LVE side: holds for a message in one record (C02_lve_one_record); full statement refuted for every library path in more than one record by C02_lve_cut_refuted."
  },
  {
   "property": "C03",
   "status": "partial",
   "theorems": [
    "C03_extract_safe_iff",
    "C03_reader_safe_iff",
    "C03_reader_refuted",
    "C03_sent_messages_are_safe"
   ],
   "note": "Full statement refuted by C03_reader_refuted; exact characterisation of the safe inputs by C03_*_safe_iff; messages made by the send API are safe."
  },
  {
   "property": "C04",
   "status": "partial",
   "theorems": [
    "C04_tool_payload_is_what_was_sent",
    "C04_lve_short_payload_refuted"
   ],
   "note": "Proved for the tool side; refuted for the LVE, which does not read the rest of a payload."
  },
  {
   "property": "C05",
   "status": "proved",
   "theorems": [
    "C05_simple_header",
    "C05_number_header",
    "C05_length_message",
    "C05_number_and_length_message"
   ],
   "note": ""
  },
  {
   "property": "C06",
   "status": "proved",
   "theorems": [
    "C06_one_record",
    "C06_error_reported",
    "C06_no_loss_no_duplication",
    "C06_memory_safe"
   ],
   "note": "TLS library modelled as the list of its answers."
  },
  {
   "property": "C07",
   "status": "partial",
   "theorems": [
    "C07_write_once",
    "C07_failure_reported",
    "C07_every_run",
    "C07_huge_message_refuted"
   ],
   "note": "Holds for messages below 2^31 bytes; the full statement is refuted for larger ones by C07_huge_message_refuted (length cast to int)."
  },
  {
   "property": "C08",
   "status": "proved",
   "theorems": [
    "C08_version_and_lib_first",
    "C08_at_most_once"
   ],
   "note": ""
  },
  {
   "property": "C09",
   "status": "proved",
   "theorems": [
    "C09_refused_without_effect"
   ],
   "note": "allocation does not fail; the scratch buffer for the error text is the only thing that changes"
  },
  {
   "property": "C10",
   "status": "partial",
   "theorems": [
    "C10_one_reply_each_partial",
    "C10_empty_library_path_refuted"
   ],
   "note": "Full statement refuted (LIB with empty path is never answered); holds for complete requests in a healthy environment."
  },
  {
   "property": "C100",
   "status": "partial",
   "theorems": [
    "C100_refuted",
    "C100_comma_partial"
   ],
   "note": "full statement refuted by C100_refuted for every build: comma after the last member; without that comma the text is JSON with the intended members (C100_comma_partial, texts without quotes, backslashes and control characters)"
  },
  {
   "property": "C101",
   "status": "partial",
   "theorems": [
    "C101_reason_partial",
    "C101_silent_refuted",
    "C101_first_refuted"
   ],
   "note": "full statement refuted by C101_silent_refuted (nothing in OpenSSL's queue: uninitialised memory is read) and C101_first_refuted (earlier reasons are lost); the last reason is given by C101_reason_partial"
  },
  {
   "property": "C102",
   "status": "partial",
   "theorems": [
    "C102_delivered_partial"
   ],
   "note": "holds by C102_delivered_partial for libraries and requests that can be packaged (Packable, Encryptable, Tidy); for what happens without these conditions see C30, C31, C38, C54 and C98"
  },
  {
   "property": "C103",
   "status": "partial",
   "theorems": [
    "C103_refuted",
    "C103_exhausted_refuted",
    "C103_wait_partial"
   ],
   "note": "full statement refuted by C103_refuted and C103_exhausted_refuted (ended LVEs are never waited for); holds by C103_wait_partial if the tool itself waits for its children"
  },
  {
   "property": "C104",
   "status": "partial",
   "theorems": [
    "C104_incomplete_refuted",
    "C104_close_refuted",
    "C104_found_partial"
   ],
   "note": "full statement refuted by C104_incomplete_refuted (a failed run replaces an earlier archive by an incomplete one that can be read) and C104_close_refuted (success although the archive cannot be finished); C104_found_partial: otherwise success means a complete archive, and failures before it is written leave the earlier one alone"
  },
  {
   "property": "C105",
   "status": "partial",
   "theorems": [
    "C105_reason_partial",
    "C105_record_partial",
    "C105_silent_refuted",
    "C105_foreign_refuted",
    "C105_interrupted_refuted"
   ],
   "note": "full statement refuted: an LVE that goes away without OpenSSL noting a reason gives an error with an empty text (C105_silent_refuted); after a failed start of another LVE the error left by SSL_shutdown is reported instead (C105_foreign_refuted), and an interrupted read is not repeated, so that the next call gets the answer to the previous one (C105_interrupted_refuted). Failures with a reason are reported with it (C105_reason_partial), and records are read in spite of interruptions while nothing has left errors in the queue (C105_record_partial). SSL_get_error and SSL_shutdown are as in OpenSSL's manual."
  },
  {
   "property": "C106",
   "status": "partial",
   "theorems": [
    "C106_linux",
    "C106_windows_partial",
    "C106_space_refuted",
    "C106_unusable_refuted"
   ],
   "note": "full statement refuted on Windows by C106_space_refuted and C106_unusable_refuted (a path with a space); holds on Linux by C106_linux, and on Windows for paths without spaces and tabs by C106_windows_partial"
  },
  {
   "property": "C107",
   "status": "partial",
   "theorems": [
    "C107_replies_partial",
    "C107_tools_refuted",
    "C107_returnlicense_refuted",
    "C107_licenseinfo_refuted",
    "C107_tools_late_refuted",
    "C107_not_found_refuted"
   ],
   "note": "Full statement refuted: TOOLS is answered VERSION 4, RETURNLICENSE NOTSIMPLE, LICENSEINFO is not understood, TOOLS is refused except directly after VERSION, a missing file is answered with code 6. Every other reply in every session is documented for its request (C107_replies_partial)."
  },
  {
   "property": "C108",
   "status": "partial",
   "theorems": [
    "C108_library",
    "C108_encrypted",
    "C108_lves",
    "C108_stale_refuted",
    "C108_windows_refuted"
   ],
   "note": "full statement refuted by C108_windows_refuted (an archive made on Windows has no permissions, its LVEs cannot be run on POSIX systems) and C108_stale_refuted (a read-only .moc left in the library makes the tool use a null stream); on Linux, in the staging folder, files of the library and LVEs keep their permissions (C108_library, C108_lves) and encrypted files are new files or keep those of what they replace (C108_encrypted)"
  },
  {
   "property": "C109",
   "status": "partial",
   "theorems": [
    "C109_structure_partial",
    "C109_dependencies_refuted",
    "C109_platform_refuted",
    "C109_documentation_refuted"
   ],
   "note": "full statement refuted by C109_dependencies_refuted (dependencies inside library), C109_platform_refuted (darwin64) and C109_documentation_refuted (the documentation's own dependencies file); holds without dependencies and without an LVE for macOS by C109_structure_partial"
  },
  {
   "property": "C11",
   "status": "proved",
   "theorems": [
    "C11_no_file_contents",
    "C11_no_file_opened",
    "C11_file_refused"
   ],
   "note": ""
  },
  {
   "property": "C110",
   "status": "partial",
   "theorems": [
    "C110_life",
    "C110_library",
    "C110_gone_partial",
    "C110_killed_refuted",
    "C110_command_line_refuted",
    "C110_no_path_refuted"
   ],
   "note": "full statement refuted by C110_killed_refuted (tool gone while a reply is written), C110_command_line_refuted (--checkout-feature never frees the manager) and C110_no_path_refuted (empty library path); proper use and release in every session that ends normally by C110_life, for the named library by C110_library, and when the tool goes away otherwise by C110_gone_partial"
  },
  {
   "property": "C111",
   "status": "partial",
   "theorems": [
    "C111_text_partial",
    "C111_failure",
    "C111_memory_partial",
    "C111_longest_refuted"
   ],
   "note": "Full statement refuted by C111_longest_refuted: for a text of exactly INT_MAX bytes len + 1 overflows. Holds for all other texts (C111_text_partial, C111_memory_partial) and for all failures (C111_failure)."
  },
  {
   "property": "C112",
   "status": "partial",
   "theorems": [
    "C112_run",
    "C112_completed",
    "C112_freed_partial",
    "C112_lost_refuted",
    "C112_dangling_refuted"
   ],
   "note": "Full statement refuted: the block of an LVE that is not there is lost (C112_lost_refuted); after createCopyArray has failed half way lveList points to freed memory, so that cleanUp or a second call would use it (C112_dangling_refuted; packagetool itself ends then). Every run is free of improper uses and the manifest lists exactly the LVEs there (C112_run, C112_completed); all is freed when all LVEs are there (C112_freed_partial)."
  },
  {
   "property": "C12",
   "status": "partial",
   "theorems": [
    "C12_approved_iff_listed_partial",
    "C12_no_certificate_refuted"
   ],
   "note": "Holds for tools with a certificate; without one the LVE compares with a null pointer."
  },
  {
   "property": "C13",
   "status": "partial",
   "theorems": [
    "C13_inside_library_partial",
    "C13_dotdot_refuted"
   ],
   "note": "Full statement refuted by '..'; holds for requests without '..' in a file system without links."
  },
  {
   "property": "C14",
   "status": "proved",
   "theorems": [
    "C14_plain_file",
    "C14_encrypted_file",
    "C14_decryption_fails",
    "C14_unreadable_file"
   ],
   "note": "the decryptor is an oracle here"
  },
  {
   "property": "C15",
   "status": "partial",
   "theorems": [
    "C15_yes_conditions_partial",
    "C15_yes_without_directory_refuted"
   ],
   "note": "Full statement refuted: YES is sent whatever stat says; the partial theorem says what YES does imply."
  },
  {
   "property": "C16",
   "status": "proved",
   "theorems": [
    "C16_library_path",
    "C16_unique"
   ],
   "note": ""
  },
  {
   "property": "C17",
   "status": "proved",
   "theorems": [
    "C17_feature",
    "C17_returnfeature"
   ],
   "note": "for licence managers that explain their refusals (a refusal without text is a null dereference)"
  },
  {
   "property": "C18",
   "status": "partial",
   "theorems": [
    "C18_license_partial",
    "C18_returnlicense_refuted"
   ],
   "note": "RETURNLICENSE is answered NOTSIMPLE, never YES."
  },
  {
   "property": "C19",
   "status": "partial",
   "theorems": [
    "C19_tools_refuted"
   ],
   "note": "Full statement refuted: TOOLS is answered VERSION 4."
  },
  {
   "property": "C20",
   "status": "partial",
   "theorems": [
    "C20_global_licence_partial",
    "C20_context_failure_refuted"
   ],
   "note": "Refuted when creating the decryption context fails; holds otherwise."
  },
  {
   "property": "C21",
   "status": "proved",
   "theorems": [
    "C21_version",
    "C21_tool_range",
    "C21_tool_asks"
   ],
   "note": ""
  },
  {
   "property": "C22",
   "status": "partial",
   "theorems": [
    "C22_result_of_a_reply",
    "C22_any_input",
    "C22_failed_read",
    "C22_version_not_written_refuted",
    "C22_codes",
    "C22_code_unique",
    "C22_texts"
   ],
   "note": "Holds for every call whose request could be written; refuted for the version call when writing fails (no error object)."
  },
  {
   "property": "C23",
   "status": "proved",
   "theorems": [
    "C23_reads",
    "C23_one_read",
    "C23_size"
   ],
   "note": ""
  },
  {
   "property": "C24",
   "status": "partial",
   "theorems": [
    "C24_lock_step_partial",
    "C24_file_delivered",
    "C24_tls_records_fair",
    "C24_empty_path_refuted",
    "C24_long_path_refuted"
   ],
   "note": "Full statement refuted by C24_empty_path_refuted (tool waits forever) and C24_long_path_refuted (LVE reads uninitialised memory); lock step holds for all call sequences over healthy links whose arguments fit a record and whose library paths are not empty."
  },
  {
   "property": "C25",
   "status": "partial",
   "theorems": [
    "C25_round_trip_partial",
    "C25_case_refuted"
   ],
   "note": "Full statement refuted for files outside package directories (C30), below empty package files (C31) and for package files in another spelling (C25_case_refuted); holds for all other files (Readable) by C25_round_trip_partial. AES and HMAC are arguments with the inverse and size laws of GoodPrimitives."
  },
  {
   "property": "C26",
   "status": "partial",
   "theorems": [
    "C26_any_order_partial",
    "C31_empty_package_refuted"
   ],
   "note": "Holds for Readable files; refuted below an empty package file, where the same request first fails and then succeeds (C31_empty_package_refuted)."
  },
  {
   "property": "C27",
   "status": "proved",
   "theorems": [
    "C27_whole_file"
   ],
   "note": ""
  },
  {
   "property": "C28",
   "status": "proved",
   "theorems": [
    "C28_authentic",
    "C28_tampered"
   ],
   "note": "What is proved is that plaintext is only handed out if the MAC matches under the key of the path; unforgeability of HMAC is not modelled."
  },
  {
   "property": "C29",
   "status": "partial",
   "theorems": [
    "C29_safe_partial",
    "C29_short_file_refuted",
    "C29_long_path_refuted"
   ],
   "note": "Full statement refuted by files shorter than 15 bytes, long directory names and authentic files in directories without package file (C30_outside_refuted); otherwise safe by C29_safe_partial."
  },
  {
   "property": "C30",
   "status": "partial",
   "theorems": [
    "C30_outside_refuted"
   ],
   "note": "Full statement refuted: such a file loses as many bytes at its end as the product key has, or memory outside the buffer is read if it is shorter."
  },
  {
   "property": "C31",
   "status": "partial",
   "theorems": [
    "C31_empty_package_refuted",
    "C25_round_trip_partial"
   ],
   "note": "Full statement refuted: the first request fails, the second succeeds. The empty package file itself is Readable (C25_round_trip_partial)."
  },
  {
   "property": "C32",
   "status": "proved",
   "theorems": [
    "C32_late_package",
    "C32_below_refuted"
   ],
   "note": "The property speaks of files directly in the directory; for files further down it is false (C32_below_refuted)."
  },
  {
   "property": "C33",
   "status": "proved",
   "theorems": [
    "C33_nearest_mask",
    "C33_other_masks"
   ],
   "note": ""
  },
  {
   "property": "C34",
   "status": "partial",
   "theorems": [
    "C34_accepted_partial",
    "C34_values",
    "C34_prefix_refuted",
    "C34_empty_refuted"
   ],
   "note": "Full statement refuted: the first character of an option is never compared (C34_prefix_refuted) and an empty argument reads past its end (C34_empty_refuted). C34_accepted_partial characterises exactly the accepted command lines of non-empty arguments with any first character; C34_values: the value kept for each option is the one given (paths without trailing separators)."
  },
  {
   "property": "C35",
   "status": "partial",
   "theorems": [
    "C35_reads_back_partial",
    "C35_spaces_partial",
    "C35_attribute_refuted",
    "C35_control_refuted"
   ],
   "note": "Full statement refuted: tabs and line feeds in attribute values read back as spaces (C35_attribute_refuted) and control characters give a document that is not XML (C35_control_refuted). For all other values, with any markup characters, the manifest is well-formed and reads back exactly (C35_reads_back_partial), including the elements of well-formed tool and dependency files."
  },
  {
   "property": "C36",
   "status": "partial",
   "theorems": [
    "C36_copied_partial",
    "C36_last_line_refuted",
    "C36_eof_byte_refuted",
    "C36_long_line_refuted"
   ],
   "note": "Full statement refuted: a last line without line feed is lost, a byte 255 ends the copy, a line of 200 or more characters overruns a buffer. C36_copied_partial: otherwise all lines but the first are in the manifest unchanged."
  },
  {
   "property": "C37",
   "status": "proved",
   "theorems": [
    "C37_no_modelica",
    "C37_contents"
   ],
   "note": "no Modelica file in the archive of an encrypted library whatever fails; every entry is a copy of a library file, LVE, .library file or the manifest, or the encryption of a Modelica file. C37_contents assumes that copied files have the contents of the original."
  },
  {
   "property": "C38",
   "status": "partial",
   "theorems": [
    "C38_complete_partial",
    "C38_spelling_refuted",
    "C38_folder_refuted",
    "C38_link_refuted",
    "C38_refuted",
    "C38_replaced_refuted",
    "C38_failures_refuted"
   ],
   "note": "full statement refuted by C38_refuted (no call fails): other spellings of package.mo, files below folders so called, nested .library folders are lost; links are left out (C38_link_refuted); A.moc is replaced; copy failures and unreadable package.mo are not reported. Holds otherwise by C38_complete_partial."
  },
  {
   "property": "C39",
   "status": "partial",
   "theorems": [
    "C39_removed_partial",
    "C39_left_refuted",
    "C39_cleartext_refuted",
    "C39_silent_refuted"
   ],
   "note": "full statement refuted: after every failure (code >= 2) the staging folder is left (C39_left_refuted), with all sources in clear text (C39_cleartext_refuted); a failing removal is silent (C39_silent_refuted). After success it is removed if the removal calls succeed (C39_removed_partial)."
  },
  {
   "property": "C40",
   "status": "partial",
   "theorems": [
    "C40_icon_partial",
    "C40_prefix_refuted",
    "C40_subdirectory_refuted",
    "C40_long_refuted",
    "C40_overrun_refuted"
   ],
   "note": "full statement refuted: with TMPDIR shorter than 26 characters (default) the path begins with the library's name (C40_prefix_refuted); icons in subdirectories fail; long TMPDIR gives no archive or an out-of-bounds read. Right only for 26 <= |TMPDIR| <= 26+|name| (C40_icon_partial)."
  },
  {
   "property": "C41",
   "status": "partial",
   "theorems": [
    "C41_library_id_partial",
    "C41_backslash_refuted",
    "C41_root_refuted"
   ],
   "note": "Full statement refuted: for a path of only slashes the id is empty and then libPath[-1] is read (C41_root_refuted); a trailing backslash that belongs to the directory name is dropped (C41_backslash_refuted). Holds for every other path by C41_library_id_partial."
  },
  {
   "property": "C42",
   "status": "proved",
   "theorems": [
    "C42_exact",
    "C42_line_ends",
    "C42_approved"
   ],
   "note": "Files of less than 2 GB (lengths are printed with %d)."
  },
  {
   "property": "C43",
   "status": "partial",
   "theorems": [
    "C43_cleared_partial",
    "C43_left_refuted"
   ],
   "note": "Full statement refuted by C43_left_refuted: with k carriage returns the last k-1 bytes of the file stay in the array. Holds with at most one carriage return (C43_cleared_partial)."
  },
  {
   "property": "C44",
   "status": "partial",
   "theorems": [
    "C44_drawn_partial",
    "C44_short_refuted",
    "C44_defined",
    "C44_round_trip"
   ],
   "note": "Full statement refuted by C44_short_refuted: any drawn byte 13 makes the declared length smaller than 32. Holds without such a byte (C44_drawn_partial); the array is fully initialised in any case (C44_defined). C44_round_trip: libraries are read back with every drawn key, also with a shorter one."
  },
  {
   "property": "C45",
   "status": "partial",
   "theorems": [
    "C45_options_partial",
    "C45_missing_value_refuted",
    "C45_checkout_partial",
    "C45_no_manager_refuted",
    "C45_empty_path"
   ],
   "note": "Full statement refuted by C45_missing_value_refuted (option without value as last argument) and C45_no_manager_refuted (writes to a NULL TLS connection); holds for all other argument vectors."
  },
  {
   "property": "C46",
   "status": "proved",
   "theorems": [
    "C46_formatted_message",
    "C46_literal_message",
    "C46_freed_once"
   ],
   "note": "Chains are acyclic by hypothesis (NoDup); no API function builds a chain of causes."
  },
  {
   "property": "C47",
   "status": "proved",
   "theorems": [
    "C47_lve_text_fits",
    "C47_tool_text_fits",
    "C47_parser_texts_fit"
   ],
   "note": ""
  },
  {
   "property": "C48",
   "status": "proved",
   "theorems": [
    "C48_executables"
   ],
   "note": "For every subset (and order) of the five LVE names and every accepted command line with values XML can represent."
  },
  {
   "property": "C49",
   "status": "partial",
   "theorems": [
    "C49_one_piece_partial",
    "C49_read_buffers_cleared_refuted",
    "C49_long_record_refuted"
   ],
   "note": "Full statement refuted: every record read in two or more pieces (so every record of more than 1023 bytes) leaves all but its last piece in freed memory. Holds for records read in one piece by C49_one_piece_partial."
  },
  {
   "property": "C50",
   "status": "partial",
   "theorems": [
    "C50_rejection_text_partial",
    "C50_blank_field_refuted"
   ],
   "note": "Holds when no argument is white space only; for such an argument no text is written and the caller's buffer keeps its old contents (C50_blank_field_refuted)."
  },
  {
   "property": "C51",
   "status": "partial",
   "theorems": [
    "C51_no_leak_partial",
    "C51_overwrite_refuted",
    "C51_handed_over"
   ],
   "note": "Safety holds for all programs; the absence of leaks is refuted for programs that set a variable which still holds an error (C51_overwrite_refuted) and proved for all others."
  },
  {
   "property": "C52",
   "status": "proved",
   "theorems": [
    "C52_refusal_names_alternatives"
   ],
   "note": "The reply text is characterised by the inductive Explanation, whose list of commands is tied to the Allowed relation."
  },
  {
   "property": "C53",
   "status": "partial",
   "theorems": [
    "C53_library_delivered_partial",
    "C53_outside_refuted"
   ],
   "note": "full statement refuted by C53_outside_refuted (files of directories without package file lose their end, or memory is read out of bounds); holds for files of packages by C53_library_delivered_partial. Below empty package files see C31."
  },
  {
   "property": "C54",
   "status": "partial",
   "theorems": [
    "C54_decrypts_partial",
    "C54_session_partial",
    "C54_empty_refuted"
   ],
   "note": "full statement refuted by C54_empty_refuted (empty package files); holds for files of packages with contents, in libraries without odd spellings and over-long paths, by the others"
  },
  {
   "property": "C55",
   "status": "partial",
   "theorems": [
    "C55_manifest_partial",
    "C55_control_refuted"
   ],
   "note": "full statement refuted by C55_control_refuted (control characters on the command line); holds for values that XML can hold and 4 <= |TMPDIR| <= 26+|name| by C55_manifest_partial"
  },
  {
   "property": "C56",
   "status": "partial",
   "theorems": [
    "C56_refuses_partial",
    "C56_missing_refuted"
   ],
   "note": "Full statement refuted by C56_missing_refuted (key file does not exist). Holds in the other cases (C56_refuses_partial)."
  },
  {
   "property": "C57",
   "status": "partial",
   "theorems": [
    "C57_file_by_file_partial",
    "C57_damaged_refuted"
   ],
   "note": "Full statement refuted by C57_damaged_refuted (a package file that cannot be read is ignored silently: the next file is encrypted without mask and the exit code is 0); with intact package files that are not empty, C57_file_by_file_partial proves the rest for all libraries."
  },
  {
   "property": "C58",
   "status": "partial",
   "theorems": [
    "C58_only_output_partial",
    "C58_plain_name_partial",
    "C58_overwritten_refuted"
   ],
   "note": "Full statement refuted by C58_overwritten_refuted (encrypt_file A.mo A.moc without base directory destroys A.mo, does not write A.moc and exits with 0). Frame and outcome proved for all argument lists by C58_only_output_partial (executions without undefined behaviour); contents by C58_plain_name_partial and C57."
  },
  {
   "property": "C59",
   "status": "proved",
   "theorems": [
    "C59_all_or_nothing",
    "C59_authentic"
   ],
   "note": "Frame and exit codes for all runs without undefined behaviour; authenticity for ordinary files of packages, whatever is on disk in their place."
  },
  {
   "property": "C60",
   "status": "partial",
   "theorems": [
    "C60_round_trip_partial",
    "C60_large_refuted"
   ],
   "note": "Full statement refuted by C60_large_refuted (files above 10 MiB are cut and cannot be decrypted); proved for smaller files by C60_round_trip_partial."
  },
  {
   "property": "C61",
   "status": "partial",
   "theorems": [
    "C61_again_partial",
    "C61_package_refuted"
   ],
   "note": "Full statement refuted by C61_package_refuted (encrypting the top package file again gives it a new mask; the files next to it can no longer be decrypted, exit code 0); proved for files that are not package files by C61_again_partial."
  },
  {
   "property": "C62",
   "status": "partial",
   "theorems": [
    "C62_connected_partial",
    "C62_no_stdin_refuted"
   ],
   "note": "full statement refuted by C62_no_stdin_refuted (a tool whose descriptor 0 is closed gets a connection to a process that has exited with 3); holds by C62_connected_partial when descriptor 0 is open and execl succeeds (execl failing is noticed only by the handshake)"
  },
  {
   "property": "C63",
   "status": "partial",
   "theorems": [
    "C63_restored_partial",
    "C63_leak_refuted"
   ],
   "note": "full statement refuted by C63_leak_refuted: the tool keeps the write end of each LVE's output, so in every history the number of LVEs ever started is bounded by the open descriptors; C63_restored_partial: exactly that one descriptor remains after a successful start and free. Not modelled: processes that are never waited for"
  },
  {
   "property": "C64",
   "status": "partial",
   "theorems": [
    "C64_write_partial",
    "C64_read_refuted"
   ],
   "note": "full statement refuted by C64_read_refuted: the pipe read by the tool always has a writer, the tool itself; writing fails as claimed by C64_write_partial"
  },
  {
   "property": "C65",
   "status": "proved",
   "theorems": [
    "C65_orphans_end"
   ],
   "note": "about the pipes; that the LVE leaves its loop at the end of its input is read from the code (mlle_lve_receive ends when tls_read fails, modelled in SessionModel)"
  },
  {
   "property": "C66",
   "status": "partial",
   "theorems": [
    "C66_freed_partial",
    "C66_inherited_refuted"
   ],
   "note": "full statement refuted by C66_inherited_refuted: an LVE started between start and free inherits the descriptor; holds when no LVE started later runs by C66_freed_partial"
  },
  {
   "property": "C67",
   "status": "proved",
   "theorems": [
    "C67_only_listed",
    "C67_handshake_first"
   ],
   "note": "TLS itself (that completing the handshake proves possession of the certificate's private key) is not modelled; renegotiation changes only global_tool_pub_key, which is read once"
  },
  {
   "property": "C68",
   "status": "partial",
   "theorems": [
    "C68_cleared_partial",
    "C68_left_refuted"
   ],
   "note": "full statement refuted by C68_left_refuted (key files with two or more carriage returns, C43); holds on every path otherwise by C68_cleared_partial"
  },
  {
   "property": "C69",
   "status": "partial",
   "theorems": [
    "C69_ends_partial",
    "C69_no_setup_refuted"
   ],
   "note": "full statement refuted by C69_no_setup_refuted: SSL_shutdown gets a null pointer when the setup failed; holds when the setup succeeded by C69_ends_partial"
  },
  {
   "property": "C70",
   "status": "partial",
   "theorems": [
    "C70_released_partial",
    "C70_key_left_refuted"
   ],
   "note": "full statement refuted by C70_key_left_refuted: two structures holding the private key (and context, certificate) stay in memory per connection; no double release and release of the connection and its channels by C70_released_partial. Reference counts as in OpenSSL 1.1"
  },
  {
   "property": "C71",
   "status": "proved",
   "theorems": [
    "C71_error_iff"
   ],
   "note": "executions without undefined behaviour (SSL_new failing is a null dereference)"
  },
  {
   "property": "C72",
   "status": "partial",
   "theorems": [
    "C72_copied_partial",
    "C72_archive_partial",
    "C72_short_read_refuted",
    "C72_short_write_refuted",
    "C72_archive_refuted"
   ],
   "note": "full statement refuted by C72_short_read_refuted, C72_short_write_refuted and C72_archive_refuted (copyFile ignores short reads and writes and reports success); holds if no read or write is cut short by C72_copied_partial and C72_archive_partial"
  },
  {
   "property": "C73",
   "status": "proved",
   "theorems": [
    "C73_text",
    "C73_columns",
    "C73_options"
   ],
   "note": ""
  },
  {
   "property": "C74",
   "status": "partial",
   "theorems": [
    "C74_success_partial",
    "C74_value_refuted"
   ],
   "note": "full statement refuted by C74_value_refuted (-h or --help as the value of an option prints the help and exits with 0); holds without such values by C74_success_partial"
  },
  {
   "property": "C75",
   "status": "partial",
   "theorems": [
    "C75_streams_partial",
    "C75_failed_start_refuted",
    "C75_no_console_refuted"
   ],
   "note": "full statement refuted by C75_failed_start_refuted (program cannot be started) and C75_no_console_refuted; holds for successful starts of a tool with standard streams by C75_streams_partial"
  },
  {
   "property": "C76",
   "status": "partial",
   "theorems": [
    "C76_connected_partial",
    "C76_closed_input_refuted"
   ],
   "note": "holds after every history of a tool with standard streams whose restoring of the streams does not fail; refuted for a tool with closed standard input"
  },
  {
   "property": "C77",
   "status": "partial",
   "theorems": [
    "C77_end_noticed_partial",
    "C77_freed_partial",
    "C77_restored_partial",
    "C77_no_console_refuted"
   ],
   "note": "holds after every history of a tool with standard streams whose restoring of the streams does not fail; refuted for programs without console"
  },
  {
   "property": "C78",
   "status": "partial",
   "theorems": [
    "C78_icon_partial",
    "C78_icon_refuted"
   ],
   "note": "full statement refuted by C78_icon_refuted: the search ends with the first folder, which is the new .library when directories are listed by name; exactly what is found is said by C78_icon_partial"
  },
  {
   "property": "C79",
   "status": "partial",
   "theorems": [
    "C79_archive_partial",
    "C79_empty_folder_refuted",
    "C79_unreadable_refuted",
    "C79_old_refuted"
   ],
   "note": "full statement refuted: no archive for libraries with empty folders, a null pointer is used if a file cannot be opened, an archive that could not be removed keeps its files; holds for filled libraries if nothing fails by C79_archive_partial"
  },
  {
   "property": "C80",
   "status": "partial",
   "theorems": [
    "C80_copy_partial",
    "C80_unreadable_refuted",
    "C80_incomplete_refuted"
   ],
   "note": "full statement refuted: a file that cannot be opened leads to use of a null pointer, short writes and folders that cannot be listed go unnoticed; holds if nothing fails by C80_copy_partial"
  },
  {
   "property": "C81",
   "status": "partial",
   "theorems": [
    "C81_removed_partial",
    "C81_left_partial",
    "C81_unlisted_refuted"
   ],
   "note": "full statement refuted by C81_unlisted_refuted: success if the folder cannot be listed; holds otherwise by C81_removed_partial"
  },
  {
   "property": "C82",
   "status": "partial",
   "theorems": [
    "C82_same",
    "C82_spelling_refuted"
   ],
   "note": "full statement refuted for package files spelt otherwise than package.mo (C82_spelling_refuted); holds for all other libraries, when files can be opened and directories listed (C82_same)"
  },
  {
   "property": "C83",
   "status": "proved",
   "theorems": [
    "C83_clean"
   ],
   "note": "keys with a byte 13 are shortened (C44); writing to an open file does not fail"
  },
  {
   "property": "C84",
   "status": "partial",
   "theorems": [
    "C84_unlisted_partial",
    "C84_unlicensed_partial",
    "C84_directories_refuted"
   ],
   "note": "proved for the library's files and their decryption; the full statement (also directories) is refuted by C84_directories_refuted: the refusal code of FILE tells whether a directory exists"
  },
  {
   "property": "C85",
   "status": "partial",
   "theorems": [
    "C85_only_asked_partial",
    "C85_licence_refuted"
   ],
   "note": "full statement refuted by C85_licence_refuted: FEATURE does not look at the key; only features named by the tool are asked for (C85_only_asked_partial)"
  },
  {
   "property": "C86",
   "status": "proved",
   "theorems": [
    "C86_feature_call",
    "C86_testing_manager",
    "C86_testing_library"
   ],
   "note": "fair link and arguments that fit a record (as in C24); managers that can be set up"
  },
  {
   "property": "C87",
   "status": "partial",
   "theorems": [
    "C87_proper",
    "C87_bounded_partial",
    "C87_per_message",
    "C87_bounded_refuted",
    "C87_released_refuted"
   ],
   "note": "full statement refuted by C87_bounded_refuted (a file larger than the memory costs an open stream per request) and C87_released_refuted (the decryption context is never freed); no double free or use after free in any session: C87_proper; bounded for sessions of any length while memory does not run out: C87_bounded_partial; at most one block or stream per message in general: C87_per_message"
  },
  {
   "property": "C88",
   "status": "partial",
   "theorems": [
    "C88_proper",
    "C88_bound_partial",
    "C88_growth_refuted"
   ],
   "note": "full statement refuted by C88_growth_refuted (every successful call leaves two blocks, one of 16400 bytes); no double free or use after free: C88_proper; what is left is bounded by three blocks per call and one per message: C88_bound_partial"
  },
  {
   "property": "C89",
   "status": "partial",
   "theorems": [
    "C89_room_partial",
    "C89_spelled_refuted",
    "C89_needed"
   ],
   "note": "full statement refuted by C89_spelled_refuted: every two characters ./ in front of a name cost two frames of 8192 bytes; bounded by two frames per separator of the requested path by C89_room_partial, reached by C89_needed"
  },
  {
   "property": "C90",
   "status": "partial",
   "theorems": [
    "C90_spelling_partial",
    "C90_other_names_refuted"
   ],
   "note": "holds for letter case and kinds of separators on file systems that ignore them (Windows) by C90_spelling_partial; refuted for . and doubled separators by C90_other_names_refuted (the request is refused)"
  },
  {
   "property": "C91",
   "status": "partial",
   "theorems": [
    "C91_safe",
    "C91_read_partial",
    "C91_empty_refuted"
   ],
   "note": "full statement refuted by C91_empty_refuted (an empty file with a path of more than 259 characters is reported as unreadable and its stream stays open); holds for all other files of less than 2 GiB by C91_read_partial; memory safety for all paths and all behaviours of the runtime by C91_safe"
  },
  {
   "property": "C92",
   "status": "partial",
   "theorems": [
    "C92_proper",
    "C92_kept_partial",
    "C92_right_or_nothing_partial",
    "C92_recovers",
    "C92_no_failures",
    "C92_crash_refuted",
    "C92_given_back_refuted",
    "C92_stream_refuted"
   ],
   "note": "full statement refuted: a context that cannot be made crashes the process (C92_crash_refuted), masks are never freed (C92_given_back_refuted), a stream may stay open after a failure (C92_stream_refuted). Holds: memory is used properly whatever fails; at most one block per package file is kept; answers are right or failures (for libraries in which a wrong mask is detected by padding or MAC) and the only crash is the null pointer; later requests are answered correctly; without failures the answers are those of CryptModel"
  },
  {
   "property": "C93",
   "status": "partial",
   "theorems": [
    "C93_proper",
    "C93_kept_partial",
    "C93_right_or_nothing_partial",
    "C93_no_failures",
    "C93_random_refuted",
    "C93_crash_refuted",
    "C93_retry_refuted",
    "C93_given_back_refuted"
   ],
   "note": "full statement refuted: failing RAND_bytes is not noticed (C93_random_refuted), contexts and the IV block are used without a check (C93_crash_refuted), a package file cannot be tried again in the same context (C93_retry_refuted), masks are never freed (C93_given_back_refuted). Holds: memory is used properly whatever fails; a bound on what is kept; success means that every file is encrypted completely and correctly, with its random bytes or old memory in their place; failure and crash only if a call failed; without failures the result is that of CryptModel"
  },
  {
   "property": "C94",
   "status": "partial",
   "theorems": [
    "C94_other_key_partial",
    "C94_exchanged_refuted",
    "C94_mask_refuted",
    "C94_other_library_refuted"
   ],
   "note": "Full statement refuted: the MAC covers neither name nor library, so files of one directory, package files of its subdirectories (whose mask is then served too) and top package files of all libraries of a product key are accepted in each other's place. Files with another key are refused unless MACs under two keys coincide (C94_other_key_partial)."
  },
  {
   "property": "C95",
   "status": "partial",
   "theorems": [
    "C95_answered_partial",
    "C95_gone_partial",
    "C95_free_partial",
    "C95_killed_refuted",
    "C95_silent_refuted",
    "C95_never_refuted",
    "C95_start_refuted",
    "C95_started_partial",
    "C95_heard",
    "C95_start_gone_partial"
   ],
   "note": "Full statement refuted: with SIGPIPE at its default every call on the connection of an ended LVE, and mlle_connections_free, kills the tool (C95_killed_refuted); an LVE that ends after the request leaves the call waiting for ever (C95_silent_refuted); without a reply no call returns (C95_never_refuted); mlle_start_executable does not return when the LVE writes nothing (C95_start_refuted). Holds when the LVE replies before it ends (C95_answered_partial), and with SIGPIPE ignored for calls that check the result of sending (C95_gone_partial) and for freeing (C95_free_partial). mlle_start_executable returns a connection when the LVE goes on and writes its part of the handshake (C95_started_partial), only when it has written all of it (C95_heard), and NULL with SIGPIPE ignored when the LVE had ended before (C95_start_gone_partial)."
  },
  {
   "property": "C96",
   "status": "partial",
   "theorems": [
    "C96_decrypts_partial",
    "C96_contents_partial",
    "C96_complete_partial",
    "C96_empty_refuted",
    "C96_old_refuted"
   ],
   "note": "full statement refuted: a library with an empty folder is never packaged although nothing fails (C96_empty_refuted), and an old archive that cannot be removed contributes its files, Modelica files among them (C96_old_refuted). Holds when files can be copied, package files are spelt in lower case and the old archive is removed or was empty (decrypts, contents, complete)."
  },
  {
   "property": "C97",
   "status": "partial",
   "theorems": [
    "C97_manifest_partial",
    "C97_prefix_refuted",
    "C97_icon_refuted",
    "C97_temp_refuted"
   ],
   "note": "full statement refuted: the icon in the manifest begins with the name of the library (C97_prefix_refuted), with directories listed by name no library is packaged with an icon (C97_icon_refuted), without TEMP there is a null pointer (C97_temp_refuted). The rest of the manifest holds when TEMP is the directory for temporary files (C97_manifest_partial)."
  },
  {
   "property": "C98",
   "status": "partial",
   "theorems": [
    "C98_succeeds_partial",
    "C98_plain_partial",
    "C98_delivered_partial",
    "C98_folder_refuted",
    "C98_refuted"
   ],
   "note": "full statement refuted by C98_refuted and C98_folder_refuted (folders called like Modelica files or like their encrypted forms); holds under Packable (the icon lies directly in the library and the temporary directory is not too short or long, lines of option files are short, .library next to the program is a folder) and Encryptable (an LVE next to the program, tidy names, no such folders) by C98_succeeds_partial, C98_plain_partial and C98_delivered_partial"
  },
  {
   "property": "C99",
   "status": "partial",
   "theorems": [
    "C99_results",
    "C99_lines_partial",
    "C99_same_partial",
    "C99_packaging_partial",
    "C99_debug_refuted",
    "C99_debug_packaging_refuted"
   ],
   "note": "full statement refuted by C99_debug_refuted and C99_debug_packaging_refuted: programs compiled for debugging write the product key; results never depend on the log (C99_results, all builds); in other builds the log has only paths that go back to requested ones (C99_lines_partial, any disk) and is the same for all libraries with the same names (C99_same_partial, C99_packaging_partial)"
  }
 ]
}