{
 "claims": [
  {
   "property": "C01",
   "status": "proved",
   "theorems": [
    "C01_binary_index_of_exact"
   ],
   "note": "Generic in the element type and order; termination and no out-of-range access are part of the Ret outcome."
  },
  {
   "property": "C02",
   "status": "proved",
   "theorems": [
    "C02_closest_is_nearest",
    "C02_closest_signed_refuted"
   ],
   "note": "Every unsigned width. For signed types the claim is outside the property and false; see the refuted theorem."
  },
  {
   "property": "C03",
   "status": "proved",
   "theorems": [
    "C03_put_saving_order",
    "C03_put_in_memory"
   ],
   "note": "Every unsigned width."
  },
  {
   "property": "C04",
   "status": "partial",
   "theorems": [
    "C04_insert_saving_order_refuted",
    "C04_insert_saving_order_partial"
   ],
   "note": "REFUTED by the code: inserting 5,5,9 from the empty slice gives [5,9,5]. Partial theorem: the value is always added and nothing else moves; order holds without duplicates or when the value is already present."
  },
  {
   "property": "C05",
   "status": "proved",
   "theorems": [
    "C05_remove_one",
    "C05_remove_in_memory"
   ],
   "note": "C05_remove_in_memory: with backing arrays; slices of other arrays are untouched."
  },
  {
   "property": "C06",
   "status": "partial",
   "theorems": [
    "C06_deviation_refuted",
    "C06_deviation_partial"
   ],
   "note": "REFUTED for every signed type (minimum vs maximum wraps). Partial theorem: exact iff the difference fits the type, hence always for unsigned types."
  },
  {
   "property": "C07",
   "status": "proved",
   "theorems": [
    "C07_last_verdict"
   ],
   "note": ""
  },
  {
   "property": "C08",
   "status": "proved",
   "theorems": [
    "C08_sorted_disjoint"
   ],
   "note": "Also identifies both slices with the sets of liked and disliked items."
  },
  {
   "property": "C09",
   "status": "proved",
   "theorems": [
    "C09_jaccard_correctly_rounded",
    "C09_any_size",
    "C09_beyond_refuted"
   ],
   "note": "Exactly representable sizes: union up to 2^24 (C09_beyond_refuted: the bound is sharp, one element more breaks it). C09_any_size: beyond that the size is still exact and the similarity has a relative error of at most 2^-21."
  },
  {
   "property": "C10",
   "status": "proved",
   "theorems": [
    "C10_similarity_symmetric"
   ],
   "note": "For every way the compiler may fuse the sum and every out-of-range conversion result; NaNs are identified."
  },
  {
   "property": "C100",
   "status": "proved",
   "theorems": [
    "C100_start_is_local",
    "C100_list_kept",
    "C100_each_as_alone",
    "C100_any_order"
   ],
   "note": "The operating system's answers (open, faults) are parameters per file. Namespaces that panic or hang when started end the process (C57, C72), so the starts are assumed to return."
  },
  {
   "property": "C101",
   "status": "partial",
   "theorems": [
    "C101_deleted_data_is_gone_refuted",
    "C101_deleted_data_returns_partial"
   ],
   "note": "REFUTED: DeleteNamespace touches no file of the namespace, so the namespace created anew finds all the old data. Holds: it finds exactly that data. (A factory is assumed; without one nothing starts, C57.)"
  },
  {
   "property": "C102",
   "status": "partial",
   "theorems": [
    "C102_renaming_keeps_data_refuted",
    "C102_renamed_never_starts",
    "C102_renamed_takes_foreign_data",
    "C102_renamed_back_partial"
   ],
   "note": "REFUTED: Rename changes only the name; the next start looks for files under the new name, fails, or takes what another namespace left there. Holds: the files under the old name stay as they are, and going back to it gives the data back."
  },
  {
   "property": "C103",
   "status": "partial",
   "theorems": [
    "C103_every_name_fits_refuted",
    "C103_names_of_every_length",
    "C103_long_name_is_created",
    "C103_which_fit_partial"
   ],
   "note": "REFUTED: there is no limit on the length of names. Holds: exactly the names of at most 249 bytes fit (limit minus the six bytes of the extension, for every limit)."
  },
  {
   "property": "C104",
   "status": "partial",
   "theorems": [
    "C104_settings_come_in_order_refuted",
    "C104_no_file_no_start",
    "C104_settings_partial",
    "C104_environment_wins",
    "C104_only_three_variables"
   ],
   "note": "REFUTED: without a readable .env the process ends, whatever the environment. Holds with a readable .env. godotenv.Load is modelled by its documented behaviour; it is not part of the repository."
  },
  {
   "property": "C105",
   "status": "partial",
   "theorems": [
    "C105_same_code_for_integers",
    "C105_closest_refuted",
    "C105_put_order_refuted",
    "C105_put_once_refuted",
    "C105_search_partial",
    "C105_nothing_lost",
    "C105_exact_partial",
    "C105_grid"
   ],
   "note": "REFUTED: distances are rounded, so for 0, 2^-60, 5 the element 0 counts as closest to 1 and PutSavingOrder returns 0, 1, 2^-60, 5 (both float types); an infinity in the slice is put in again because Inf-Inf is NaN. Proved: the search finds equal elements for all slices without NaN, infinities included; for all values, NaN included, nothing is lost, moved or invented and nothing fails; if no difference to the value is rounded all claims hold, and that is so for multiples of a common power of two with factors of less than prec-1 bits, for instance whole numbers below 2^52 in float64."
  },
  {
   "property": "C106",
   "status": "partial",
   "theorems": [
    "C106_prints_no_data_refuted",
    "C106_prints_everything",
    "C106_prints_all_again",
    "C106_output_apart_partial"
   ],
   "note": "REFUTED: flushHeader prints the whole storage with fmt.Println. Proved: the printed text determines every answer of the storage; every Flush prints everything again, at least 5 bytes per stored operation; the storage and the file are as without printing, and Add prints nothing."
  },
  {
   "property": "C107",
   "status": "partial",
   "theorems": [
    "C107_delta_refuted",
    "C107_index_refuted",
    "C107_delta_partial",
    "C107_index_partial",
    "C107_two_steps"
   ],
   "note": "REFUTED: Open looks at the lock flag and sets it in separate steps, so two calls whose checks both precede the first lock both succeed; one of two delta operations, or all changes to the index closed first, are then lost though every call succeeds. Proved for any number of calls and any order of the two steps: a call is refused exactly if another has set the lock before it looked, otherwise it succeeds, and all that succeed know the content of the file. The steps before the lock are taken as one, and so are those from the lock on."
  },
  {
   "property": "C108",
   "status": "partial",
   "theorems": [
    "C108_second_start_refuted",
    "C108_second_start_partial",
    "C108_started_runs"
   ],
   "note": "REFUTED: the second Start takes the delta file for one left by a dead process, opens it, is refused the index and closes the delta file, which is marked closed from then on while the first worker uses it; Open no longer refuses it, and of the operations of two users one is lost. Proved: the second Start always fails, so there are never two workers, and the lock byte of the delta file is the only byte of any file that it changes."
  },
  {
   "property": "C109",
   "status": "partial",
   "theorems": [
    "C109_open_partial",
    "C109_created_partial",
    "C109_lost_refuted",
    "C109_closed_refuted",
    "C109_invented_refuted"
   ],
   "note": "REFUTED: nothing is forced to disk, so after a Close that reported success the index may have its old pairs (C109_lost_refuted), the file may be refused for good because it announces pairs that are not there (C109_closed_refuted), or it may be loaded with a pair 0 -> 0 nobody put (C109_invented_refuted). True: a power failure while the index is open, and after the creation of the file."
  },
  {
   "property": "C11",
   "status": "partial",
   "theorems": [
    "C11_similarity_range_refuted",
    "C11_similarity_range_partial"
   ],
   "note": "REFUTED: NaN (0/0) when there are no likes and the truncated dislike weight is 0, e.g. two equal profiles with one dislike and factor 1/2. Partial theorem: that is the only exception."
  },
  {
   "property": "C110",
   "status": "partial",
   "theorems": [
    "C110_words",
    "C110_name_refuted",
    "C110_name_partial",
    "C110_list_refuted",
    "C110_list_length_first_refuted",
    "C110_list_partial"
   ],
   "note": "REFUTED: names and the list are several words, read and stored without a lock. A reading that overlaps one renaming can give the bytes that follow the shorter name in memory (C110_name_refuted, any order of the words); a listing that overlaps a creation can run beyond the end of the old array (C110_list_refuted, C110_list_length_first_refuted). True: every word read was stored (C110_words); names of one length and lists in one array are read whole."
  },
  {
   "property": "C111",
   "status": "partial",
   "theorems": [
    "C111_messages_partial",
    "C111_one_rule",
    "C111_message_tells_the_rule_refuted"
   ],
   "note": "REFUTED: getFieldErrorMsg knows required, lte and gte, but the tags in use are required, lowercase, alphanum, oneof, min and max. So a name with wrong characters, an unknown type and a factor below 0 or above 1 all get \"Unknown error\". Proved: every value that does not fit breaks exactly one rule, and the message is the text the service has for that rule; a missing field and a name that does not start with a letter are told apart."
  },
  {
   "property": "C112",
   "status": "partial",
   "theorems": [
    "C112_failed_start_releases_refuted",
    "C112_failed_start_releases_partial",
    "C112_started_holds",
    "C112_worker_end_releases",
    "C112_same_start"
   ],
   "note": "REFUTED: delta Close gives up before closing the file when its flush fails, so every attempt to start a namespace whose index is refused can leave one more delta file open, without end. Proved: only the delta file can be left open by a Start that returns an error, whatever fails and whatever the files contain, and not even that one if no access to it fails; a Start that succeeds holds the three files open once each; the worker's end releases the delta and the index file."
  },
  {
   "property": "C113",
   "status": "proved",
   "theorems": [
    "C113_index_of_first",
    "C113_searches_agree"
   ],
   "note": "The element type and its equality are arbitrary."
  },
  {
   "property": "C114",
   "status": "partial",
   "theorems": [
    "C114_retry_after_write_error_refuted",
    "C114_retry_after_truncate_error_refuted",
    "C114_failed_recovery_partial",
    "C114_retry_partial"
   ],
   "note": "REFUTED: the copy back over the file clears the lock byte with its first bytes, so after an error behind it (or a failing Truncate) the next open takes the half-written file for a clean one. Proved: whatever fails, the file is left as a process dying in a recovery of some beginning would leave it; and a file left locked opens again with nothing lost."
  },
  {
   "property": "C115",
   "status": "partial",
   "theorems": [
    "C115_close_to_a_third_refuted",
    "C115_close_to_a_third_partial",
    "C115_whole_factor_partial",
    "C115_rounding_refuted"
   ],
   "note": "REFUTED: with the factor 1/2 the truncated weight of dislikes puts two users at distance 0 from a third and 50 from each other; rounding alone violates it by 2^-17. Proved: the inequality up to 100/(sum of the weights) + 2^-11 per similarity for every factor, and up to 2^-10 for the factors 0 and 1."
  },
  {
   "property": "C116",
   "status": "proved",
   "theorems": [
    "C116_ids_do_not_matter"
   ],
   "note": "Equality of the floats, for every factor."
  },
  {
   "property": "C117",
   "status": "partial",
   "theorems": [
    "C117_equal_effect_refuted",
    "C117_equal_effect_partial"
   ],
   "note": "REFUTED for 0.5 and every other factor below 1: exchanging likes and dislikes turns 100 into 0. Proved for the factor 1, up to 2^-11."
  },
  {
   "property": "C118",
   "status": "partial",
   "theorems": [
    "C118_list_refuted",
    "C118_list_partial",
    "C118_others_change_nothing"
   ],
   "note": "REFUTED: a namespace whose creation was answered 400 because the list could not be saved is listed (C118_list_refuted). Proved: exactly the claim while saves succeed; otherwise the listing misses nothing and has at most one extra entry per request whose save fails. A request that is no POST changes nothing, and neither does a POST that is not answered 201 if the save works."
  },
  {
   "property": "C119",
   "status": "partial",
   "theorems": [
    "C119_success_is_saved",
    "C119_close_ends",
    "C119_failed_close_refuted",
    "C119_failed_close_partial",
    "C119_failed_first_close_partial"
   ],
   "note": "REFUTED: the unlocked header with the new number of pairs is written before the pairs, so a failed write of the pairs leaves a file that the next Open accepts with a mixture of old and new pairs. Proved: a reported success is true for every failure script, Close always ends, a failed Close leaves what a crash during Close leaves (C33), and the first Close of a new index never leaves a mixture."
  },
  {
   "property": "C12",
   "status": "proved",
   "theorems": [
    "C12_self_100_disjoint_0"
   ],
   "note": ""
  },
  {
   "property": "C120",
   "status": "proved",
   "theorems": [
    "C120_flush_success",
    "C120_close_success",
    "C120_calls_end",
    "C120_failure_keeps_flushed"
   ],
   "note": "One failing call on a storage reached without failures; retrying after a failure is C62."
  },
  {
   "property": "C121",
   "status": "partial",
   "theorems": [
    "C121_next_after_error_refuted",
    "C121_iteration_partial",
    "C121_rewind_recovers"
   ],
   "note": "REFUTED: after a Next that failed in the middle of an entry the reader stays there, and the next Next returns an entry made of the wrong bytes (witness: an entry with room, the read fails after 29 bytes, the next call returns an empty entry of user 0). Proved: until a Next fails every answer is the entry whose turn it is, an error is never taken for an entry or the end, after Rewind every answer is right once nothing fails any more, whatever failed before, the file is not changed."
  },
  {
   "property": "C122",
   "status": "partial",
   "theorems": [
    "C122_delta_success",
    "C122_delta_returns",
    "C122_delta_failure",
    "C122_index_success",
    "C122_index_failure_refuted",
    "C122_index_failure_partial"
   ],
   "note": "REFUTED for the index: load sets the lock byte before it reads the pairs, so an error while they are read leaves the file locked and every later Open refuses it. Proved: the whole claim for the delta storage (Open and OpenMaybeRecover, reopened with OpenMaybeRecover); for the index, success gives every pair, and after an error the pairs are still in the file, which opens with all of them if the lock byte was not reached and is refused otherwise."
  },
  {
   "property": "C123",
   "status": "partial",
   "theorems": [
    "C123_every_operation_refuted",
    "C123_flush_appends_partial",
    "C123_idle_flush",
    "C123_append_only"
   ],
   "note": "REFUTED: Add replaces an unflushed operation on the same pair in place, so of several operations only the last is recorded, and at the place of the first (like 7, like 8, dislike 7 is written as dislike 7, like 8). Proved: what the file holds stays where it is whatever is called; a Flush appends for each pair on which something was done its last operation, once; a Flush without new operations leaves the file as it is; Close keeps everything."
  },
  {
   "property": "C124",
   "status": "partial",
   "theorems": [
    "C124_removed_is_erased_refuted",
    "C124_close_partial",
    "C124_not_shrunk_partial"
   ],
   "note": "REFUTED: Close writes the pairs over the beginning of the file and does not truncate it, so a removed pair can stay behind them (witness: pairs 1 and 2, 2 removed). Proved: exactly which bytes the file then holds; the claim if the index has at least as many pairs as the file had room for."
  },
  {
   "property": "C125",
   "status": "partial",
   "theorems": [
    "C125_repeated_close_refuted",
    "C125_closer_partial",
    "C125_no_closer_partial",
    "C125_success_is_saved"
   ],
   "note": "REFUTED with a closer (as namespaces open it): a failed Close has closed the file, so every later Close fails and the pairs are lost. Proved: with a closer every later Close reports an error and changes no byte; without one the whole claim; in both cases, after any number of Closes, a reported success is true."
  },
  {
   "property": "C126",
   "status": "partial",
   "theorems": [
    "C126_shared_wait_refuted",
    "C126_a_wait_for_every_call",
    "C126_answer_time_partial",
    "C126_longest_wait"
   ],
   "note": "REFUTED: the wait is not shared; k answers take at least k waits of 50 ms, so with a full queue no bound below 5 s holds. What holds: the call in place k of the queue (from 0) is answered after exactly k + 1 waits if no time is lost elsewhere, never earlier."
  },
  {
   "property": "C127",
   "status": "partial",
   "theorems": [
    "C127_repeated_close_refuted",
    "C127_repeated_close_partial",
    "C127_once_closed"
   ],
   "note": "REFUTED: a failing write that leaves some of the entries in the file makes the repeated Close succeed over a torn file (C127_repeated_close_refuted). Proved: it is true whenever no failing write left entries in the file, with any number of failed Flush and Close calls, torn headers and failed unlockings (C127_repeated_close_partial); once the file is closed everything is saved also if that Close reported an error, and repeating it is always an error (C127_once_closed)."
  },
  {
   "property": "C128",
   "status": "partial",
   "theorems": [
    "C128_lost_refuted",
    "C128_whole_records_partial"
   ],
   "note": "REFUTED: Recover copies over the original file without forcing anything to disk, so when a damaged record makes the later ones move, a block that was written beside one that was not overwrites a record that was in order (C128_lost_refuted). Proved for files all records of which are valid, every independent choice of blocks of at least 14 bytes, if the header is on disk as before its flag was cleared, as in the end, or announced the right number (C128_whole_records_partial)."
  },
  {
   "property": "C129",
   "status": "proved",
   "theorems": [
    "C129_compare_cost",
    "C129_every_item_is_read"
   ],
   "note": "Counter of the elements looked at, with the proof that leaving it out gives the modelled function; upper bound for all profiles, lower bound for those made with the API."
  },
  {
   "property": "C13",
   "status": "proved",
   "theorems": [
    "C13_filebuffer_is_ideal_file",
    "C13_kbuf_is_filebuffer"
   ],
   "note": "Whole sessions refine an independently specified ideal file (content as a function); buffer length below 2^63."
  },
  {
   "property": "C130",
   "status": "proved",
   "theorems": [
    "C130_open_memory",
    "C130_every_user_takes_1600",
    "C130_counter_is_ghost"
   ],
   "note": "the growth of append is a parameter within Go's bounds; map buckets and reads of a fixed size are not counted"
  },
  {
   "property": "C131",
   "status": "partial",
   "theorems": [
    "C131_extremes_refuted",
    "C131_large_refuted",
    "C131_zero_partial",
    "C131_hundred_partial"
   ],
   "note": "REFUTED: one dislike weighs nothing at factor 1/2, so it neither spoils a score of 100 nor lifts one of 0; and profiles of 2^25 and 2^25 + 1 likes score 100 at every factor. Exact for 0 (no common like, and no common dislike or dislikes without weight); 100 means equal likes while the weights sum up to less than 2^19, and equal dislikes under the stated bound"
  },
  {
   "property": "C132",
   "status": "partial",
   "theorems": [
    "C132_accepted_refuted",
    "C132_unannounced_refuted",
    "C132_accepted_partial"
   ],
   "note": "REFUTED: Open ignores bytes behind the announced records and Flush writes behind them, so after one stray byte everything added is read back wrong; with unannounced whole records what is added is lost and they come to life. True for files that end with the last announced record, with any version byte and checksums"
  },
  {
   "property": "C133",
   "status": "partial",
   "theorems": [
    "C133_delta_version_refuted",
    "C133_index_version_refuted",
    "C133_recdb_version_refuted",
    "C133_delta_partial",
    "C133_index_partial",
    "C133_recdb_partial"
   ],
   "note": "REFUTED: none of the three looks at the version, the iterator does not look at the type either; delta and index files are relabelled as version 1 by Close. Proved instead, for all contents: exactly which files are accepted (magic, lock byte 0, all announced records present), and that a refused file is unchanged, except that an index that is too short is left locked."
  },
  {
   "property": "C134",
   "status": "partial",
   "theorems": [
    "C134_ipv6_refuted",
    "C134_plain_partial",
    "C134_bracketed_partial",
    "C134_only_partial"
   ],
   "note": "REFUTED: a host with colons (every IPv6 address) that is not given in brackets makes Listen fail. Proved instead: exactly the hosts without colons and brackets, and those in one pair of brackets, are taken apart again, into the host and the decimal port. Looking the host up is not modelled."
  },
  {
   "property": "C135",
   "status": "proved",
   "theorems": [
    "C135_flush",
    "C135_close",
    "C135_open",
    "C135_open_new",
    "C135_index_open",
    "C135_index_close"
   ],
   "note": "Exact counts of calls, as the part of the script of the environment that is used up. The theorems about Open count the calls of an Open that succeeds while none of these calls fails; C135_case runs both storages through."
  },
  {
   "property": "C136",
   "status": "partial",
   "theorems": [
    "C136_two_saves",
    "C136_one_of_the_saves_refuted",
    "C136_never_mixed_partial",
    "C136_whole_partial",
    "C136_alone_partial",
    "C136_bytes_partial"
   ],
   "note": "REFUTED: C136_two_saves gives, for any two lists whose texts differ in length, the schedule that mixes them although both saves return nil. Proved without restriction on the schedule: the file is never a mixture that loading accepts (C136_never_mixed_partial), what it is when all succeed (C136_whole_partial), that a save overlapping no other is exact (C136_alone_partial, writes in any pieces), and where every byte comes from (C136_bytes_partial)."
  },
  {
   "property": "C137",
   "status": "partial",
   "theorems": [
    "C137_old_or_new_refuted",
    "C137_others_refuted",
    "C137_bytes_partial",
    "C137_after_partial",
    "C137_deleted_partial"
   ],
   "note": "REFUTED: dying inside SetPrevious can leave a third profile that is read without an error (13 bytes), or make the entries behind it unreachable whatever is called (17 bytes). Proved for every such rewrite: the exact bytes left behind, nothing outside of the entry changed; the entries in front are returned; the torn entry fails to be read or is an entry of the same capacity, and then everything behind it is returned; a changed deletion mark alone leaves the old or the new file."
  },
  {
   "property": "C138",
   "status": "partial",
   "theorems": [
    "C138_retry_refuted",
    "C138_unchanged_refuted",
    "C138_retry_damages",
    "C138_retry_where",
    "C138_failed_partial",
    "C138_reopened_partial"
   ],
   "note": "REFUTED: a failed SetPrevious can leave a mixed entry (C138_unchanged_refuted) and must not be repeated: the repetition overwrites the entry in front and reports success (C138_retry_refuted; for every database in which that entry has the same capacity C138_retry_damages; the exact place in general C138_retry_where). Proved for every script of failing writes: success means exactly the entry was replaced, an error that only a first part of it was; the other entries in front, and behind if it can be read, are still returned."
  },
  {
   "property": "C139",
   "status": "partial",
   "theorems": [
    "C139_old_or_new_refuted",
    "C139_bytes_partial",
    "C139_after_partial",
    "C139_one_block_partial"
   ],
   "note": "REFUTED: after a SetPrevious that returned success, a power failure can leave a third profile that is read without an error, even if every block of 512 bytes is wholly old or wholly new (C139_old_or_new_refuted). Proved for every block size and every choice of what reached the disk: nothing outside of the entry changes and each of its bytes is old or new; the entries in front are returned; the entry fails to be read or is one of the same capacity, and then everything behind it is returned; an entry inside of one block is whole if the block is."
  },
  {
   "property": "C14",
   "status": "proved",
   "theorems": [
    "C14_write_zeros_exact",
    "C14_skip_reading_exact"
   ],
   "note": "Any working writer; any reader delivering between 1 and n bytes per call."
  },
  {
   "property": "C140",
   "status": "partial",
   "theorems": [
    "C140_other_capacity_refuted",
    "C140_same_capacity_refuted",
    "C140_at_the_start",
    "C140_other_capacity_partial",
    "C140_again_partial"
   ],
   "note": "REFUTED after a Next that failed: the capacity remembered is then that of the entry that could not be read, so a wrong replacement is written over the entry last returned (C140_other_capacity_refuted) and the right one is refused (C140_same_capacity_refuted). Proved: refusal at the start and after a Rewind for every file; refusal of every other capacity on every sound database; any number of successful replacements in a row with nothing read ahead."
  },
  {
   "property": "C141",
   "status": "partial",
   "theorems": [
    "C141_independent_refuted",
    "C141_in_turns_partial"
   ],
   "note": "REFUTED: with a first entry of 4096 bytes, a Next of each of two iterators returns the first entry to one and the second entry to the other, without an error (C141_independent_refuted). Proved: any number of iterators used in turns, each turn beginning with a Rewind, answer as if alone."
  },
  {
   "property": "C15",
   "status": "proved",
   "theorems": [
    "C15_delta_written",
    "C15_delta_read_back"
   ],
   "note": "Any working writer; any reader, with short reads and with EOF beside the last bytes."
  },
  {
   "property": "C16",
   "status": "proved",
   "theorems": [
    "C16_single_byte_corruption_detected"
   ],
   "note": "Every position of the record, every wrong byte."
  },
  {
   "property": "C17",
   "status": "proved",
   "theorems": [
    "C17_delta_lock_flag",
    "C17_delta_lock_is_header_field",
    "C17_index_lock_flag",
    "C17_recdb_lock_flag"
   ],
   "note": "All three formats, in-memory and OS files, every pointer position."
  },
  {
   "property": "C18",
   "status": "proved",
   "theorems": [
    "C18_recover_to_keeps_valid_records"
   ],
   "note": "Bound: inputs below 2^32*18 bytes (uint32 counter). Any reader."
  },
  {
   "property": "C19",
   "status": "proved",
   "theorems": [
    "C19_recover_idempotent",
    "C19_recover_harmless"
   ],
   "note": "Pointer at the start (see C20)."
  },
  {
   "property": "C20",
   "status": "partial",
   "theorems": [
    "C20_recover_any_pointer_refuted",
    "C20_recover_from_pointer_partial"
   ],
   "note": "REFUTED: Recover reads from the current pointer; a pointer past the header loses all entries. Partial: recovers exactly what lies from the pointer on."
  },
  {
   "property": "C21",
   "status": "partial",
   "theorems": [
    "C21_get_exact",
    "C21_get_last_op_refuted",
    "C21_get_last_op_partial",
    "C21_get_after_flush_partial"
   ],
   "note": "REFUTED: Add(+,1,10);Flush;Add(+,1,20);Get(1,10) reports absence. C21_get_exact gives the answer for every history; the partial says for exactly which pairs the claim holds."
  },
  {
   "property": "C22",
   "status": "proved",
   "theorems": [
    "C22_close_and_reopen",
    "delta_calls_succeed",
    "delta_sessions_exist"
   ],
   "note": "Histories shorter than 2^32 (uint32 counter), no I/O faults, every map order."
  },
  {
   "property": "C23",
   "status": "proved",
   "theorems": [
    "C23_counts_after_flush",
    "C23_counts_survive_reopen"
   ],
   "note": "Same bounds as C22."
  },
  {
   "property": "C24",
   "status": "proved",
   "theorems": [
    "C24_user_count"
   ],
   "note": "Same bounds as C22."
  },
  {
   "property": "C25",
   "status": "proved",
   "theorems": [
    "C25_crash_in_call",
    "C25_crash_in_close"
   ],
   "note": "Every crash point at byte granularity, writes reach the disk in order."
  },
  {
   "property": "C26",
   "status": "proved",
   "theorems": [
    "C26_locked_while_open"
   ],
   "note": "Every intermediate byte state."
  },
  {
   "property": "C27",
   "status": "proved",
   "theorems": [
    "C27_open_rejects_bad_files"
   ],
   "note": "Every malformed content."
  },
  {
   "property": "C28",
   "status": "partial",
   "theorems": [
    "C28_open_maybe_recover_empty_refuted",
    "C28_open_empty_partial"
   ],
   "note": "REFUTED for every file kind and pointer: IsLocked reports EOF on an empty file. Partial: Open creates the empty storage."
  },
  {
   "property": "C29",
   "status": "partial",
   "theorems": [
    "C29_invalid_entry_loaded_refuted",
    "C29_unopenable_refuted",
    "C29_torn_rest_stays_refuted",
    "C29_crash_in_recovery_partial",
    "C29_whole_records_partial"
   ],
   "note": "REFUTED in three ways: the copy clears the lock byte before the entries are replaced. Partial: a crash before byte 9 is rewritten or after the truncation loses nothing; and if no record is damaged, neither does one at any other moment, except while a wrong count in the header (bytes 10 to 13) is being put right."
  },
  {
   "property": "C30",
   "status": "partial",
   "theorems": [
    "C30_zero_tail_refuted",
    "C30_torn_write_partial"
   ],
   "note": "REFUTED for zero-filled tails: 18 zero bytes pass the checksum. Partial: proved for torn writes."
  },
  {
   "property": "C31",
   "status": "proved",
   "theorems": [
    "C31_index_is_a_map",
    "C31_index_is_a_map_over_sessions"
   ],
   "note": "The first theorem is for any history on any open index; the second includes any number of closings and reopenings (fewer than 2^32 calls)."
  },
  {
   "property": "C32",
   "status": "proved",
   "theorems": [
    "C32_close_and_reopen",
    "index_sessions_exist",
    "index_reopen_exists"
   ],
   "note": "Executions without I/O errors."
  },
  {
   "property": "C33",
   "status": "partial",
   "theorems": [
    "C33_crash_in_close_refuted",
    "C33_crash_in_close_partial",
    "C33_crash_in_first_close_partial",
    "C33_locked_while_open",
    "C33_crash_in_creation"
   ],
   "note": "REFUTED: Close writes the unlocked header with the new count before the entries, so dying in between leaves an unlocked file mixing old and new entries. Proved: the file is refused at any time before Close and until the second byte of Close, holds the old map at that byte and the new one after the last; the first Close of a new index never leaves a mixture."
  },
  {
   "property": "C34",
   "status": "partial",
   "theorems": [
    "C34_broken_index_is_reset_refuted",
    "C34_broken_index_stays",
    "C34_open_error_ends_start",
    "C34_corruption_recognised",
    "C34_unbroken_index_partial",
    "C34_crash_blocks_every_start"
   ],
   "note": "REFUTED: index.Open never returns an error wrapping CorruptedFileError, so the reset code is unreachable (C34_open_error_ends_start, any faults); a locked index makes every start fail and stays as it is. Partial: a missing, empty or closed index opens with its pairs; an error wrapping CorruptedFileError would be recognised."
  },
  {
   "property": "C35",
   "status": "proved",
   "theorems": [
    "C35_recdb_written",
    "C35_recdb_read_back",
    "C35_recdb_prefix_checked"
   ],
   "note": "Any working writer, any stream reader (any chunking), any following bytes."
  },
  {
   "property": "C36",
   "status": "partial",
   "theorems": [
    "C36_write_entry_stays_inside_refuted",
    "C36_write_entry_stays_inside_partial"
   ],
   "note": "REFUTED: data larger than the capacity is written in full and success is reported. The partial theorem gives the exact output: max(Capacity, header+data) bytes, padded by zeros."
  },
  {
   "property": "C37",
   "status": "partial",
   "theorems": [
    "C37_read_entry_fits_refuted",
    "C37_read_entry_fits_partial",
    "C37_small_capacity_accepted"
   ],
   "note": "REFUTED for capacities 0..4, where the check subtracts in uint32 and wraps around. Proved for every byte stream with capacity at least 5."
  },
  {
   "property": "C38",
   "status": "proved",
   "theorems": [
    "C38_predicted_capacity_suffices"
   ],
   "note": "Every profile; slices too long for memory excluded by typing."
  },
  {
   "property": "C39",
   "status": "proved",
   "theorems": [
    "C39_iterator_enumerates",
    "C39_locked_refused"
   ],
   "note": "Any sequence of HasNext, Next and Rewind calls, any buffer size, any trailing bytes."
  },
  {
   "property": "C40",
   "status": "partial",
   "theorems": [
    "C40_set_previous_refuted",
    "C40_set_previous_partial",
    "C40_overwrites_end_of_file",
    "C40_where_it_writes"
   ],
   "note": "REFUTED: the bufio.Reader has read ahead, so SetPrevious overwrites a later part of the file. C40_where_it_writes says for every file and buffer size which bytes are overwritten (those before the place read up to) and where the iteration goes on, and that the claim holds if nothing was read ahead; so it does for the last entry of a file with nothing behind it, while on files that fit in the buffer it is the end of the file that is overwritten."
  },
  {
   "property": "C41",
   "status": "partial",
   "theorems": [
    "C41_create_refuted",
    "C41_created_file_unusable_refuted",
    "C41_create_partial"
   ],
   "note": "REFUTED: Create never flushes its bufio.Writer, so nothing reaches the file. The partial theorem: flushed, the bytes would be a valid empty database."
  },
  {
   "property": "C42",
   "status": "proved",
   "theorems": [
    "C42_name_language",
    "C42_path_safe"
   ],
   "note": ""
  },
  {
   "property": "C43",
   "status": "partial",
   "theorems": [
    "C43_under_rec_path_refuted",
    "C43_rec_path_ignored",
    "C43_files_distinct_partial"
   ],
   "note": "REFUTED: forgeNamespace drops the base path, so no file of a created namespace lies under REC_PATH (C43_under_rec_path_refuted, exact: C43_rec_path_ignored). Proved: files of different namespaces and kinds, and namespaces.json, always differ (as case-sensitive names)."
  },
  {
   "property": "C44",
   "status": "proved",
   "theorems": [
    "C44_names_unique"
   ],
   "note": ""
  },
  {
   "property": "C45",
   "status": "partial",
   "theorems": [
    "C45_alone_agrees",
    "C45_unique_refuted",
    "C45_not_lost_refuted",
    "C45_concurrent_partial",
    "C45_file_refuted",
    "C45_file_partial"
   ],
   "note": "REFUTED: without a lock two concurrent creations of one name both succeed, and a successful creation can be lost. Proved for every interleaving: earlier namespaces stay, nothing unrequested appears, names are unique if the requested ones are new and distinct. The file may end up with an older list (C45_file_refuted), but always with a complete one (C45_file_partial)."
  },
  {
   "property": "C46",
   "status": "partial",
   "theorems": [
    "C46_update_never_returns",
    "C46_update_completes_refuted",
    "C46_update_refused_partial"
   ],
   "note": "REFUTED: Rename returns a nil channel, so UpdateNamespace blocks forever for every existing namespace and allowed name (C46_update_never_returns). Proved: the refused requests return an error and change nothing."
  },
  {
   "property": "C47",
   "status": "partial",
   "theorems": [
    "C47_no_trace_refuted",
    "C47_failed_creation_partial"
   ],
   "note": "REFUTED: if only the save fails the namespace stays in the list. Proved: every other failure leaves the state unchanged."
  },
  {
   "property": "C48",
   "status": "partial",
   "theorems": [
    "C48_restart_refuted",
    "C48_restart_loses_everything",
    "C48_empty_list_partial"
   ],
   "note": "REFUTED: the struct has no exported fields, so only the number of namespaces is saved and loading gives an error and nil entries. Proved exactly; the empty list is the only one that survives."
  },
  {
   "property": "C49",
   "status": "partial",
   "theorems": [
    "C49_always_400",
    "C49_addresses_refuted",
    "C49_harmless_partial",
    "C49_get_handler_partial",
    "C49_put_handler_partial"
   ],
   "note": "REFUTED: the route binds :domain but the handlers read 'namespace', so every GET/PUT by name answers 400. Proved: it never answers with or changes a namespace; and what the two handlers would answer if the parameter were bound (GET is right; PUT refuses rightly, but blocks forever where it should succeed)."
  },
  {
   "property": "C50",
   "status": "proved",
   "theorems": [
    "C50_create_validates"
   ],
   "note": "The handler takes the decoded JSON body; the decoding of the text is C85. The converse (201 for an acceptable body) is proved for a factor other than 0, see C66."
  },
  {
   "property": "C51",
   "status": "partial",
   "theorems": [
    "C51_valid_port_refuted",
    "C51_config_partial",
    "C51_tcp_port_partial",
    "C51_host_port"
   ],
   "note": "REFUTED: a port above 65535 is accepted. Proved: valid ports and the host are taken, everything that is not a non-negative int falls back to the defaults, GetHostPort is host:decimal."
  },
  {
   "property": "C52",
   "status": "proved",
   "theorems": [
    "C52_answered_once_in_order"
   ],
   "note": "At most one reply, in queue order, and always the right one, a refusal only after a cancellation; a queued call is answered or still waiting. That the waiting ones are answered is C53."
  },
  {
   "property": "C53",
   "status": "proved",
   "theorems": [
    "C53_waiting_is_bounded"
   ],
   "note": "Explicit bound: 5*(queue length + 1) worker steps, and the worker is never blocked meanwhile."
  },
  {
   "property": "C54",
   "status": "proved",
   "theorems": [
    "C54_stop_ends_the_worker",
    "C54_closed_once_in_order",
    "C54_answers_come_first",
    "C54_unused_after_close"
   ],
   "note": ""
  },
  {
   "property": "C55",
   "status": "partial",
   "theorems": [
    "C55_cancel_closes_refuted",
    "C55_never_without_stop",
    "C55_calls_refused_partial"
   ],
   "note": "REFUTED: the drain loop receives until the channel is closed, which only Stop does, so after a cancellation alone the worker blocks forever and no storage is ever closed (C55_never_without_stop, for every execution). Waiting calls are answered."
  },
  {
   "property": "C56",
   "status": "partial",
   "theorems": [
    "C56_one_batch_refuted",
    "C56_batches_have_one_action"
   ],
   "note": "REFUTED: the slice is made with length 1, so every batch has exactly one action."
  },
  {
   "property": "C57",
   "status": "partial",
   "theorems": [
    "C57_fresh_start_refuted",
    "C57_forged_never_starts",
    "C57_start_partial"
   ],
   "note": "REFUTED: a namespace whose delta file is missing or empty never starts (IsLocked has no byte to read), for every factory and all faults; a namespace made by the service never starts on any disk (nil like storage factory). Partial: with a well-formed closed delta file, no or closed index, and a working factory it starts and answers from the files."
  },
  {
   "property": "C58",
   "status": "partial",
   "theorems": [
    "C58_listen_failure_refuted",
    "C58_signal_ends_process_refuted",
    "C58_no_return_without_signal",
    "C58_stuck_after_listen_failure",
    "C58_received_signal_ends_partial",
    "C58_result",
    "C58_failure_is_reported",
    "C58_listener_ends",
    "C58_clean_exit_possible"
   ],
   "note": "REFUTED: Run waits on <-quit before it looks at listenError, so a failed listener leaves the process waiting for a signal for ever; a signal between signal.Notify and the receive on the unbuffered channel is lost. Partial: once a signal was received the process ends within six steps of main and timer; C58_result explains every result and exit code; a listen failure is reported unless the timer fired or closing failed."
  },
  {
   "property": "C59",
   "status": "proved",
   "theorems": [
    "C59_index_written",
    "C59_index_read_back",
    "C59_index_prefix_checked"
   ],
   "note": "Any working writer; any reader, with short reads and with EOF beside the last bytes."
  },
  {
   "property": "C60",
   "status": "proved",
   "theorems": [
    "C60_index_close_releases_file"
   ],
   "note": "The file's reads and writes follow an arbitrary fault script."
  },
  {
   "property": "C61",
   "status": "partial",
   "theorems": [
    "C61_delta_close_releases_file_refuted",
    "C61_delta_close_releases_file_partial"
   ],
   "note": "REFUTED: if the flush or the unlocking fails Close returns without closing the file. Proved: closed whenever Close returns nil, and Close returns nil if there are no I/O errors."
  },
  {
   "property": "C62",
   "status": "partial",
   "theorems": [
    "C62_flush_retry_refuted",
    "C62_flush_retry_partial",
    "C62_failed_flush_keeps_answers",
    "C62_nothing_torn_partial"
   ],
   "note": "REFUTED: a write error in the entries leaves a torn record which the retried Flush appends to; reopening reads misaligned records. Proved: a failing Flush never changes an answer of the open storage; any number of failing Flush calls, mixed with other calls, is harmless for the file as long as the failure was in the header or the first write of the entries wrote nothing."
  },
  {
   "property": "C63",
   "status": "partial",
   "theorems": [
    "C63_crash_in_creation_refuted",
    "C63_crash_in_creation_partial"
   ],
   "note": "REFUTED for every crash point between bytes 1 and 13: neither Open nor OpenMaybeRecover accepts the file. Proved from byte 14 on."
  },
  {
   "property": "C64",
   "status": "partial",
   "theorems": [
    "C64_open_detects_corruption_refuted",
    "C64_open_ignores_checksums"
   ],
   "note": "REFUTED: Open loads every announced record whatever its checksum byte (proved in general). Recovery does check them (C18)."
  },
  {
   "property": "C65",
   "status": "proved",
   "theorems": [
    "C65_created_is_listed"
   ],
   "note": ""
  },
  {
   "property": "C66",
   "status": "partial",
   "theorems": [
    "C66_zero_factor_refuted",
    "C66_nonzero_factor_partial"
   ],
   "note": "REFUTED: 'required' makes the validator refuse the factor 0. Proved: accepted exactly when it is not 0."
  },
  {
   "property": "C67",
   "status": "partial",
   "theorems": [
    "C67_starts_refuted",
    "C67_restart_crashes",
    "C67_starts_partial",
    "C67_each_is_started"
   ],
   "note": "REFUTED: a non-empty JSON array (which is what SaveNamespaces writes) makes Start call a method on nil and crash. Proved: it starts exactly for every other content."
  },
  {
   "property": "C68",
   "status": "proved",
   "theorems": [
    "C68_delete",
    "C68_the_deleted_are_stopped",
    "C68_name_is_free_again"
   ],
   "note": "In the model a namespace that was taken off the list is kept in a ghost field as it was then."
  },
  {
   "property": "C69",
   "status": "partial",
   "theorems": [
    "C69_created_answers_refuted",
    "C69_not_started_no_replies",
    "C69_started_answers_partial"
   ],
   "note": "REFUTED: CreateNamespace never starts the namespace, so no call on it is ever answered before the process is restarted."
  },
  {
   "property": "C70",
   "status": "proved",
   "theorems": [
    "C70_every_request_answered",
    "C70_no_request_kills"
   ],
   "note": ""
  },
  {
   "property": "C71",
   "status": "partial",
   "theorems": [
    "C71_no_crash_refuted",
    "C71_call_after_stop_crashes",
    "C71_no_other_crash_partial"
   ],
   "note": "REFUTED: sending on or closing the closed channel panics. Nothing else crashes."
  },
  {
   "property": "C72",
   "status": "partial",
   "theorems": [
    "C72_failed_start_keeps_files_refuted",
    "C72_no_factory_locks_files",
    "C72_broken_index_keeps_disk",
    "C72_failed_start_partial"
   ],
   "note": "REFUTED: without a like storage factory Start panics with both files locked, after which no start succeeds. Partial: a start that returns an error because of the index, the recdb file or the factory keeps the operations and pairs, unlocked."
  },
  {
   "property": "C73",
   "status": "partial",
   "theorems": [
    "C73_restart_refuted",
    "C73_shutdown_blocks_every_start",
    "C73_start_without_index_partial"
   ],
   "note": "REFUTED: the shard never calls Stop, cancelling does not close the storages, so the index file stays locked and every later start of a namespace that was running fails. Partial: with the index file removed the namespace starts and has everything flushed."
  },
  {
   "property": "C74",
   "status": "partial",
   "theorems": [
    "C74_graceful_refuted",
    "C74_graceful_partial"
   ],
   "note": "REFUTED: a connection accepted but not yet registered when Shutdown looks is cut off by the exit. Proved for every interleaving: before Run returned there was a moment when all connections served until then had ended, and at most one connection is cut off."
  },
  {
   "property": "C75",
   "status": "proved",
   "theorems": [
    "C75_storage_gets_calls"
   ],
   "note": ""
  },
  {
   "property": "C76",
   "status": "partial",
   "theorems": [
    "C76_likes_seen_refuted",
    "C76_replies_are_empty"
   ],
   "note": "REFUTED: likeStorage.ProcessActions is a stub. Proved: every profile that comes back is nil and every list empty."
  },
  {
   "property": "C77",
   "status": "proved",
   "theorems": [
    "C77_parser_is_grammar",
    "C77_load_exact",
    "C77_load_missing",
    "C77_too_deep"
   ],
   "note": ""
  },
  {
   "property": "C78",
   "status": "proved",
   "theorems": [
    "C78_torn_file_detected"
   ],
   "note": ""
  },
  {
   "property": "C79",
   "status": "partial",
   "theorems": [
    "C79_failed_save_refuted",
    "C79_save_partial"
   ],
   "note": "REFUTED: os.WriteFile truncates first. Proved: a failed save leaves the old content or a beginning of the new one."
  },
  {
   "property": "C80",
   "status": "proved",
   "theorems": [
    "C80_profiles_independent"
   ],
   "note": "Memory model with shared backing arrays (SliceHeap.v)."
  },
  {
   "property": "C81",
   "status": "partial",
   "theorems": [
    "C81_listing_refuted",
    "C81_listing_partial"
   ],
   "note": "REFUTED: Remove moves the last element of the slice a listing is reading, so a namespace can be shown twice or missed. Proved for every interleaving of (overlapping) creations without deletions; the HTTP API has no deletion."
  },
  {
   "property": "C82",
   "status": "proved",
   "theorems": [
    "C82_always_opens",
    "C82_answers_admissible",
    "C82_flushed_survives",
    "C82_pending_visible"
   ],
   "note": "Histories of several processes with crashes in Add, Flush and Close (SpecLife.v); crashes inside OpenMaybeRecover are C29. Get of a user with pending operations hides older flushed ones (C21), hence nothing_pending."
  },
  {
   "property": "C83",
   "status": "partial",
   "theorems": [
    "C83_fields_partial",
    "C83_update_fields_partial",
    "C83_fields_refuted"
   ],
   "note": "REFUTED: fields are reported as 'Type' or 'Name', not by their JSON keys, and a name beginning with a digit is not reported beside another fault. What is reported otherwise is exact (partial theorems)."
  },
  {
   "property": "C84",
   "status": "proved",
   "theorems": [
    "C84_bodies"
   ],
   "note": "Texts of errors are arbitrary bytes; where they are not UTF-8 the replacement character is shown for each invalid byte."
  },
  {
   "property": "C85",
   "status": "proved",
   "theorems": [
    "C85_post_object",
    "C85_post_other",
    "C85_post_deep",
    "C85_put_object"
   ],
   "note": "Any text; invalid UTF-8 and half surrogate pairs are read as U+FFFD. strconv's correct rounding is built into the model."
  },
  {
   "property": "C86",
   "status": "partial",
   "theorems": [
    "C86_documented_partial",
    "C86_documented_refuted"
   ],
   "note": "REFUTED: a creation is answered 201 instead of the documented 200, and every PUT 400, which is not documented. Exactly these deviate (partial theorem)."
  },
  {
   "property": "C87",
   "status": "partial",
   "theorems": [
    "C87_weighted_mean_refuted",
    "C87_weighted_mean_partial"
   ],
   "note": "REFUTED as stated: the weight of the dislikes is truncated to an integer; with one common like, one dislike and factor 1/2 the result is 100 instead of 66.67. Proved: against the mean with the truncated weight the relative error is at most 2^-19, and against the claimed mean the error is at most 100 / (sum of the weights) + 2^-11 (all unless both weights are 0, where C11 gives NaN)."
  },
  {
   "property": "C88",
   "status": "proved",
   "theorems": [
    "C88_delta_calls_return",
    "C88_index_calls_return",
    "C88_recdb_calls_return",
    "C88_helper_loops_end",
    "C88_iteration_ends"
   ],
   "note": "Any content, pointer, closed flag and fault script. Memory is taken as unlimited (see C90); SetPrevious needs data that is not nil."
  },
  {
   "property": "C89",
   "status": "partial",
   "theorems": [
    "C89_read_error_refuted",
    "C89_read_error_partial"
   ],
   "note": "REFUTED: RecoverTo takes every read error for the end of the file, so one failing read empties the file and success is reported. Proved: under any faults a recovery that reports success leaves the recovery of some beginning of the content."
  },
  {
   "property": "C90",
   "status": "partial",
   "theorems": [
    "C90_memory_refuted",
    "C90_memory_partial",
    "C90_counter_is_ghost"
   ],
   "note": "REFUTED: both slices are made with a length taken from the file before it is checked; a 17-byte entry asks for up to 64 GiB. Proved: a call that succeeds asked for at most twice the bytes it read and twice the capacity. The counter is proved not to change the behaviour."
  },
  {
   "property": "C91",
   "status": "partial",
   "theorems": [
    "C91_one_user_refuted",
    "C91_one_user_partial"
   ],
   "note": "REFUTED: OpenMaybeRecover takes the file of an open storage for a corrupted one; each of the two storages then writes its own count, and an operation flushed and closed upon is not found again, after any history. Proved: with Open alone at most one storage is open under every interleaving of whole calls, and a second Open fails without touching the file."
  },
  {
   "property": "C92",
   "status": "proved",
   "theorems": [
    "C92_delta_closed",
    "C92_index_closed"
   ],
   "note": "The storage that is closed is arbitrary and earlier I/O may have failed. The index theorem is for an index opened with a closer, as OpenFile does; a closer is only absent when a caller passes nil."
  },
  {
   "property": "C93",
   "status": "proved",
   "theorems": [
    "C93_binary_index_of_cost",
    "C93_closest_cost"
   ],
   "note": "Counts the elements looked at: the two ends and one for each turn of the loop. Both theorems also say that the counted functions return what the model of the code returns."
  },
  {
   "property": "C94",
   "status": "partial",
   "theorems": [
    "C94_power_partial",
    "C94_flushed_lost_refuted",
    "C94_invented_refuted",
    "C94_closed_refuted",
    "C94_created_refuted"
   ],
   "note": "REFUTED four ways, for every use of the storage: nothing is ever forced to disk, so flushed operations can be missing; zero bytes in a block that was not written are recovered as operations with all numbers 0; a file whose first block alone was written after Close announces records that are not there and is refused for good; and a created file of which only the length reached the disk has no magic number and is refused for good. Proved: with blocks of at least 14 bytes a power failure while the storage is open leaves a file that opens and has all operations it was opened with, before any others. The positive theorem is about a storage opened on a well-formed file that is wholly on disk; a new file and Close are not covered by it."
  },
  {
   "property": "C95",
   "status": "partial",
   "theorems": [
    "C95_dislike_refuted",
    "C95_like_refuted",
    "C95_like_partial",
    "C95_partial"
   ],
   "note": "REFUTED: the weight of the dislikes is truncated, so with factor 1/2 a second, common dislike lowers 100 to 75; for likes a rounding error lowers the result in a case with 511 likes and 137 dislikes. Proved for likes: the fall is at most a factor 1 - 2^-18, and none while there are at most 32 likes and 32 dislikes; in general at most 100 / (sum of the weights) before and after + 2^-10."
  },
  {
   "property": "C96",
   "status": "partial",
   "theorems": [
    "C96_dislike_refuted",
    "C96_like_partial",
    "C96_partial"
   ],
   "note": "REFUTED: the weight of the dislikes is truncated, so with factor 1/2 a second dislike that is not shared raises 0 to 25. Proved for likes: no rise while there are at most 65536 likes and dislikes, at most a factor 1 / (1 - 2^-18) always; in general at most 100 / (sum of the weights) before and after + 2^-10."
  },
  {
   "property": "C97",
   "status": "partial",
   "theorems": [
    "C97_own_memory_refuted",
    "C97_write_own_bytes_refuted",
    "C97_buffer_memory_partial",
    "C97_read_into_partial"
   ],
   "note": "REFUTED: NewFileBuffer keeps the slice it is given, so writes change the caller's slice and changes of the slice change the buffer; a Write of the buffer's own bytes stores other bytes. Proved: as long as nobody else uses the array of the buffer, every session behaves as FileBuffer.v says (with C13: as an ideal file), a Read fills only the front of the given slice, and no slice of another array changes; a buffer made from nil shares nothing."
  },
  {
   "property": "C98",
   "status": "partial",
   "theorems": [
    "C98_delta_many_refuted",
    "C98_index_many_refuted",
    "C98_delta_one_opening_partial",
    "C98_delta_reopen_partial",
    "C98_index_reopen_partial"
   ],
   "note": "REFUTED: the count in both headers has 32 bits and is truncated without an error. After 2^32 operations (ids) the count written is 0 and the next Open finds nothing, although no call failed. Proved for any number of operations: within one opening the answers, counts and records of the delta storage are exact (for the index this is C31); Close writes every record, and the next Open knows exactly the first ones, as many as their number modulo 2^32 - everything when there are fewer than 2^32."
  },
  {
   "property": "C99",
   "status": "partial",
   "theorems": [
    "C99_skip_refuted",
    "C99_entry_refuted",
    "C99_skip_partial",
    "C99_recdb_partial",
    "C99_bufio_partial",
    "C15_delta_read_back",
    "C18_recover_to_keeps_valid_records",
    "C59_index_read_back"
   ],
   "note": "REFUTED: when EOF comes with the last byte to skip, SkipReading reports it, and ReadEntry of recdb then fails on a complete entry with free space at the end of the stream. Proved: exactly this case deviates, the delta and index decoders accept every reader, and through a bufio.Reader (as the iterator reads) ReadEntry does too."
  }
 ]
}