#!/usr/bin/env python3
"""Writes MANIFEST.json from the table below (run from anywhere)."""
import json, os
P, R, N = "proved", "partial", "not_applicable"
CLAIMS = [
 ("C01", P, ["C01_round_trip"], ""),
 ("C02", P, ["C02_marshal_exact", "C02_layout"], ""),
 ("C03", P, ["C03_unmarshal_total"], ""),
 ("C04", P, ["C04_truncation_rejected"], ""),
 ("C05", P, ["C05_parse_components"], "components are int32 values: equality modulo 2^32 (see C08)"),
 ("C06", P, ["C06_idempotent_until_reset"], ""),
 ("C07", R, ["C07_text_round_trip_refuted", "C07_text_round_trip_iff"],
  "the claim as stated is false (counter-example proved); the exact set of versions for which it holds is proved"),
 ("C08", R, ["C08_numbers_refuted", "C08_numbers_in_range"],
  "false beyond the int32 range (counter-example proved); proved within the range"),
 ("C09", R, ["C09_write_appends_refuted", "C09_write_appends"],
  "false for the zero version (counter-example proved); exact behaviour proved for all versions"),
 ("C10", P, ["C10_maximal_runs"], "for inputs without the byte 0xFF, on which the tokenizer panics (C11)"),
 ("C11", R, ["C11_never_panics_refuted", "C11_panics_iff_ff"],
  "false (counter-example proved); the panicking inputs are exactly those containing 0xFF"),
 ("C12", P, ["C12_token_count", "C12_termination_sticky_reset"], ""),
 ("C13", P, ["C13_get_returns_last_set"], "keys are distinguished by their 64-bit hash"),
 ("C14", P, ["C14_clean_evicts_only_idle"], ""),
 ("C15", R, ["C15_clean_complete_refuted", "C15_clean_halves"],
  "false for a single pass (counter-example proved); each pass removes at least half, and logarithmically many passes remove all"),
 ("C16", P, ["C16_no_panic_one_row_per_key"], ""),
 ("C17", R, ["C17_shared_row_refuted", "C17_one_key"], "false for one row under two keys: counter-example history with a later panic proved; proved for rows that are stored again only under their own key"),
 ("C19", P, ["C19_getters_repeatable"],
  "for user agents whose three detections do not panic and with no cached row at the start (see C21, C38); context buffer below 4 GiB"),
 ("C20", P, ["C20_order_independent"], "same hypotheses as C19; includes GetModel"),
 ("C21", R, ["C21_cached_model_refuted", "C21_caching_transparent"],
  "false for GetModel (counter-example on the shipped tables proved); proved for every other getter and user agents with pairwise different hashes"),
 ("C22", P, ["C22_concurrent_isolation"],
  "GetModel excluded by the statement; user agents with pairwise different 64-bit hashes (C18); calls whose user agent makes a detection panic are unconstrained but do not disturb the others"),
 ("C23", R, ["C23_filter_cold", "C23_filter_same_mask", "C23_warm_cache_refuted"],
  "false with a row cached under another mask (counter-example proved); proved for a cold cache and for rows cached under the same mask"),
 ("C24", P, ["C24_client_priority"], ""),
 ("C31", R, ["C31_header_refines", "C31_unknown_header_refuted", "C31_unknown_header"],
  "false for an unknown non-empty header, which yields UNK (counter-example proved); known and empty headers proved, unknown headers characterised"),
 ("C32", P, ["C32_version_format"], ""),
 ("C39", R, ["C39_numeric_thresholds_refuted", "C39_same_length", "C39_text_order", "C39_one_threshold", "C39_blink_28"],
  "false: the comparison is textual (counter-example on the shipped tables proved); proved when thresholds and major version have the same number of digits; the engine reported by a function with one threshold is given exactly, and for the 19 shipped browsers with threshold 28 the wrong versions are listed"),
 ("C40", P, ["C40_engine_order"], ""),
 ("C25", R, ["C25_filter_refuted", "C25_type_origin"],
  "false (counter-example proved); all ways in which a type outside the mask can arise are proved"),
 ("C26", P, ["C26_device_priority"], ""),
 ("C27", P, ["C27_os_first"], ""),
 ("C28", R, ["C28_pool_clean", "C79_leak_refuted"],
  "proved for the fields and contents of the context; refuted for GetModel served from the cache, which can read beyond the length of the working buffer and show bytes of the previous user agent (C79)"),
 ("C29", P, ["C29_set_user_agent"], ""),
 ("C30", R, ["C30_setter_order_refuted", "C30_header_first", "C30_order_other_getters"],
  "false for GetBrowser (counter-example on the shipped tables proved); proved for all other getters"),
 ("C33", P, ["C33_os_version_dotted"], ""),
 ("C34", P, ["C34_model_expanded"], ""),
 ("C38", R, ["C38_poison_refuted", "C38_poisoned_row"],
  "false (counter-example on the shipped tables proved); what the next look-up answers is proved for every panic of the client detection"),
 ("C41", R, ["C41_client_names", "C41_device_names", "C41_names_distinct_refuted"],
  "false only because TV and shell TV share a name (proved); everything else proved"),
 ("C35", P, ["C35_os_no_panic"], ""),
 ("C36", P, ["C36_device_no_panic"], ""),
 ("C37", R, ["C37_client_panics_refuted", "C37_exactly_eight_entries", "C37_each_reached", "C37_detects_shipped"],
  "false (counter-example on the shipped tables proved); the user agents that panic are exactly those selecting one of eight entries, and each of the eight is reached"),
 ("C18", R, ["C18_collision_refuted", "C18_near_isolated", "C18_common_suffix"],
  "false: an explicit 64-bit FNV-1 collision makes a context report the other user agent's operating system (proved on the shipped tables); proved instead that user agents differing in at most four adjacent bytes never share a row, and that a common suffix neither adds nor removes collisions"),
 ("C42", R, ["C42_interning", "C42_unbounded_refuted"],
  "proved for every sequence of strings of less than 4 GiB in all; beyond that the 32-bit bounds wrap and the claim is refuted"),
 ("C43", R, ["C43_terminates", "C43_lookahead", "C43_plain", "C43_exact", "C43_lookbehind_refuted", "C43_lookahead_refuted", "C43_backslash_refuted"],
  "termination without panic proved for every pattern; C43_exact: look-arounds whose brackets pair up are removed as wholes and nothing else is; absence of look-around openers proved where only the look-ahead detector matches, refuted in general"),
 ("C44", R, ["C44_uint64", "C44_int32", "C44_int8", "C44_bytes", "C44_minimum_refuted"],
  "proved for every value but the least int8 and int32, where it is refuted"),
 ("C45", P, ["C45_generated", "C45_only_smallest", "C45_map_order"], "also: only the smallest threshold is ever used"),
 ("C53", P, ["C53_client", "C53_version"], "for databases with seven client files and well-formed group references; the getter must not panic"),
 ("C54", P, ["C54_engine"], "for databases whose entries with engine versions have no constant version"),
 ("C55", P, ["C55_os"], "for databases with well-formed group references"),
 ("C56", P, ["C56_device"], "for databases with eight device files, non-empty brand names and model templates below 256 bytes"),
 ("C57", P, ["C57_hint"], "for headers whose hash no other header of the database shares"),
 ("C48", R, ["C48_stable","C48_os_version","C48_growth_refuted"],
  "Every getter but the two of the OS version leaves the context unchanged when called again, whatever the cache does. Refuted for GetOSVersionString: on the shipped tables \"iPhone OS 9_1\" appends three bytes per call, for ever."),
 ("C49", R, ["C49_skip_refuted","C49_rules_dead"],
  "Refuted: on the shipped tables neither skip rule ever applies to any user agent, because the table's patterns differ from the texts the rules compare with; \"Mac Overcast\" is reported as iOS, \"like Android 4\" as Android."),
 ("C50", R, ["C50_template_refuted","C50_names","C50_engine","C50_brand","C50_os","C50_model"],
  "Refuted: Podkicker/1.9.4 reports Podkicker$1. Proved: five browser names are the only ones with a dollar sign; engines and brands never contain one, operating systems and models only when the user agent does."),
 ("C51", R, ["C51_readme_refuted"],
  "Refuted: the engine of the README's user agent is Blink, not WebKit."),
 ("C52", P, ["C52_os","C52_device","C52_client"],
  "For every table, with nothing cached. Through a shared cache settings do leak (C23_warm_cache_refuted)."),
 ("C46", P, ["C46_every_row_once", "C46_terminates", "C46_panic_loses_batch", "C46_zero_threads_stuck"],
  "passRaw as a transition system over every schedule: when it finishes the counter is the number of rows and the output is one block per row in some order, never interleaved; without panics at most 42 rows + threads + 2 steps are possible and the program is never stuck; a row whose analysis panics or zero threads makes finishing impossible."),
 ("C47", R, ["C47_place", "C47_getters", "C47_source", "C47_reuse_refuted", "C47_cached_refuted"],
  "Refuted: setting another user agent overwrites returned strings, and without any reuse a getter served from the cache overwrites the OS version string returned earlier by the same context. Proved: where each returned string lives; getters that miss the cache keep every string; strings outside the working buffer survive every getter."),
 ("C58", P, ["C58_language", "C58_leftmost_first", "C58_unique", "C58_utf8", "C58_plain"],
  "For every pattern the modelled parser accepts (all shipped patterns are accepted) and every text."),
 ("C59", R, ["C59_pattern", "C59_client", "C59_os", "C59_device", "C59_literal_refuted", "C59_desktop_refuted"],
  "Holds for patterns, and for the getters when no fixed text (and no vendor pattern) tells the two user agents apart; refuted otherwise: fixed texts are matched with their case and a captured OS name in lower case is not a desktop."),
 ("C60", P, ["C60_any_cache"],
  "Any cache obeying the contract, any interleaving. GetModel is excluded because it fails even with the built-in cache (C21)."),
 ("C61", R, ["C61_components", "C61_same_text_refuted", "C61_same_text"],
  "The components agree; the last sentence (String() gives the text back) is refuted and proved for texts of four numbers with a positive first one."),
 ("C62", P, ["C62_word_start", "C62_entry", "C62_shipped_clients", "C62_vendor", "C62_shipped_vendors", "C62_clients", "C62_vendors"],
  "Word starts of client patterns and word ends of vendor patterns, for all patterns, for those shipped, and for those the compiler writes for any database."),
 ("C63", P, ["C63_single", "C63_panic", "C63_version_text_refuted"],
  "The report of -ua holds the answers of a fresh context; the version lines show the structured version, which can differ from the version text (witness)."),
 ("C64", P, ["C64_analysed", "C64_own_url_refuted"],
  "The contents analysed are those of the first successful fetch for the last segment; a witness shows that they need not be those of the URL given."),
 ("C65", P, ["C65_clients", "C65_systems", "C65_no_systems", "C65_devices", "C65_dollar"],
  "exact conditions (iff) for clients, operating systems and devices; the two remaining theorems show that the conditions on empty files and templates are needed"),
 ("C66", P, ["C66_no_race", "C66_no_deadlock", "C66_reused_row_races"],
  "Single accesses of any number of goroutines, init and cleaner; races by the happens-before of the Go memory model. C66_reused_row_races: storing a row returned by Get again would race (the getters never do)."),
 ("C67", P, ["C67_atomic", "C67_isolation"],
  "Simulation of the machine with single accesses by the one with whole calls (C22), for every script of getters."),
 ("C68", P, ["C68_three", "C68_getter", "C68_again", "C68_shared_refuted"],
  "Every cache a context has for itself (rows may be lost at any time), and for single getters every cache at all. With a cache shared with another context the bound of three is false (C68_shared_refuted)."),
 ("C69", P, ["C69_map_order"],
  "Every database, and every two orders of its maps; keys of a map are distinct, as in Go."),
 ("C70", P, ["C70_client", "C70_os", "C70_device", "C70_vendor", "C70_hint", "C70_database", "C70_reference_refuted", "C70_backquote_refuted", "C70_injection_refuted", "C70_return_refuted", "C70_threshold_refuted", "C70_hash_refuted"],
  "Against a specification of the part of Go the files use; format.Source is trusted to keep tokens, and that the text is UTF-8 is not checked. Each condition on the database is shown to be needed."),
 ("C71", P, ["C71_starts", "C71_shipped", "C71_engine_refuted", "C71_vendor_refuted"],
  "For patterns of the modelled syntax without flags of their own, given that the checked patterns, vendor patterns and engine names are such; that uaxplc accepts databases where the last two are not is C71_engine_refuted and C71_vendor_refuted."),
 ("C72", P, ["C72_client", "C72_client_union", "C72_device", "C72_no_device", "C72_device_union", "C72_device_bits", "C72_device_refuted"],
  "The reading by device type is refuted (C72_device_refuted, a tablet found only when mobiles are switched on); C72_device_bits says exactly which bits can matter."),
 ("C73", P, ["C73_report", "C73_completes", "C73_panic", "C73_repeated", "C73_repeated_refuted"],
  "The claim for repeated user agents is refuted for the model (C73_repeated_refuted: two equal rows, one worker, a false mismatch) and proved for the other nine answers."),
 ("C74", P, ["C74_client", "C74_os", "C74_device", "C74_brand_model", "C74_type_refuted"],
  "The reading that the device type, too, depends on the device databases only is refuted (C74_type_refuted)."),
 ("C75", P, ["C75_client", "C75_browser", "C75_padded", "C75_appended", "C75_engine_version", "C75_engine_version_refuted", "C75_os", "C75_device"],
  "The browser name is compared with an empty client hint. Without the condition on engine names the claim for the engine version is refuted (C75_engine_version_refuted): the engine version of one browser appears only after another browser, which does not apply, is added."),
 ("C76", P, ["C76_browser", "C76_no_client", "C76_hint", "C76_engine", "C76_engine_version", "C76_engine_refuted", "C76_os", "C76_no_os", "C76_brand"],
  "That an empty engine means that no engine pattern applies is refuted (C76_engine_refuted): Konqueror 4 with WebKit in its user agent has no engine."),
 ("C77", P, ["C77_meaning", "C77_groups", "C77_shipped"],
  "About the model of Go's regexp (Model_Regex.v): its parser and matcher together against an independent grammar and denotation. The grammar leaves out what no shipped pattern uses (flags inside the pattern, named classes, \\b, counts over 1000); Go's limit on the size of a program is not modelled. Case variants are those of the model's orbit table."),
 ("C78", R, ["C78_widens", "C78_groups", "C78_widens_refuted", "C78_groups_refuted", "C78_narrows_refuted"],
  "Proved when no empty choice between brackets, )||(, remains. Without this condition refuted (C78_widens_refuted): (a)|(?!b)|(c) matches everything, normalised it is (a)|(c). Groups in a look-around shift the numbers of later groups (C78_groups_refuted). The normalised pattern may match more (C78_narrows_refuted). Patterns in which (?< or (?! remains as written text are left out (plain_rest)."),
 ("C79", R, ["C79_model", "C79_cold", "C79_leak_refuted", "C79_others"],
  "Refuted for GetModel served from the cache (C79_leak_refuted): a pooled context shows nine bytes of the user agent it was used for before. Proved: what exactly is shown (C79_model), nothing when the context analyses the user agent itself (C79_cold), and the other getters stay inside the buffers with any honest cache (C79_others, user agents below 2^24 bytes that select none of the eight entries of C37)."),
 ("C80", R, ["C80_continued", "C80_model", "C80_appended", "C80_other_refuted", "C80_panic_refuted"],
  "The second sentence is refuted: one operating system added at the beginning of the list makes a record of Windows read as Android (C80_other_refuted), a shorter list makes GetOS panic (C80_panic_refuted). The first sentence is proved (all getters but GetModel, which reads the record only: C80_model)."),
 ("C81", R, ["C81_exact", "C81_fixed", "C81_shown", "C81_crash_refuted", "C81_wrong_refuted"],
  "The last sentence is refuted: one byte changed passes Unmarshal and makes GetOS panic (C81_crash_refuted) or show another text (C81_wrong_refuted). The rest is proved for records that hold what the getter asks for and no header; GetModel: C79."),
 ("C82", R, ["C82_one_owner", "C82_as_if_alone", "C82_twice_refuted", "C82_after_refuted"],
  "Proved for histories in which everyone uses and releases only contexts they own (C82_one_owner, C82_as_if_alone). Refuted for whatever others do: a context released twice is handed to two innocent users (C82_twice_refuted), one used after its release is changed under its next owner (C82_after_refuted). Calls are taken as a whole; with one owner no two of them overlap."),
 ("C83", P, ["C83_size", "C83_drains", "C83_keeps_all"],
  "The time stamps of a history are the clock readings in the order of the critical sections; in Go the clock is read just before the lock. There is no bound but the traffic: rows are never dropped for lack of room."),
 ("C84", R, ["C84_touches", "C84_finishes", "C84_release", "C84_empty_refuted", "C84_tilde_refuted"],
  "Proved: C84_touches, C84_finishes, C84_release (with the conditions of C70 on the database). Refuted: a directory without YAML files overwrites the target with empty tables and exits with 0 (C84_empty_refuted); every tilde of the path is replaced, not only a leading one (C84_tilde_refuted). The module bot does nothing and reports success."),
 ("C85", R, ["C85_other_files", "C85_file_mode", "C85_same_file", "C85_same_file_refuted"],
  "Proved with different files for input and output (C85_other_files, C85_file_mode). Refuted when they are the same: the output is truncated before the input is read, so the input is lost and the run fails (C85_same_file, C85_same_file_refuted)."),
 ("C86", R, ["C86_same_getters", "C86_settled", "C86_readers", "C86_os_version_refuted", "C86_version_refuted"],
  "Proved for all getters but GetOSVersionString, and for it when the text has no underscore, given that the versions could be parsed (C86_readers, C86_settled; C86_same_getters ties the single accesses to the getters of the other theorems). Refuted for an OS version with underscores, where one goroutine gets 9.19.1 for 9.1 (C86_os_version_refuted), and if only the detections have been made (C86_version_refuted). With rows stored by other contexts a detection can be forgotten (C68_shared_refuted); the condition then is the one of C86_readers."),
 ("C87", R, ["C87_os", "C87_clients", "C87_devices", "C87_every_entry_refuted", "C87_removed"],
  "The claim that every entry can answer is refuted; what is true instead is proved exactly: the dead entries are those listed in Spec_Dead.v, no others (C87_os, C87_clients, C87_devices), and taking them out changes no answer and no access to the cache (C87_removed). Dead means never first in its own list; masks and the order of the classes are not considered."),
 ("C88", R, ["C88_android", "C88_brand", "C88_lost", "C88_samsung_refuted"],
  "Refuted by the user agent of testdata/custom/single0.json. C88_android, C88_brand and C88_lost say exactly how far it goes: the phone chosen is never behind entry 1029."),
 ("C89", R, ["C89_before", "C89_words", "C89_brand", "C89_words_refuted"],
  "Refuted by the user agent of the HTTP library requests. C89_before, C89_words and C89_brand say how far it goes."),
 ("C90", P, ["C90_run", "C90_one_reading", "C90_refused", "C90_silent", "C90_verbose_value"],
  "Go's package flag is modelled for text, integer and boolean flags (Model_Command.v); what it accepts is stated as a grammar (Spec_Command.v)."),
 ("C91", R, ["C91_words_refuted", "C91_before", "C91_words", "C91_name"],
  "false: MyAppClient/1.0 is reported to run on a Mac because of ppC (counter-example on the shipped tables proved); proved instead: no entry but the seven with a ^ looks at what precedes, and 21 words, wherever they stand, fix the entry that answers or an earlier one"),
 ("C92", P, ["C92_settings", "C92_current_filters_refuted"],
  "proved for a context fresh or reset, cache never answering (C21, C22 and C51 say what the cache changes); also proved that the natural stronger reading - the filters set when the getter is called count - is false on the shipped tables: a filter set after the first getter of its kind is ignored until the next user agent"),
 ("C93", P, ["C93_unknown", "C93_two"],
  "the lower bound is tight: 18+/. is a browser, A/1/ runs Android, LG is a phone (C93_two)"),
 ("C94", R, ["C94_browser_version", "C94_browser_version_refuted", "C94_os_version", "C94_engine_version_refuted"],
  "true of operating systems and of every browser but one (entry 411, Yandex Browser, whose version is the whole match); false of engines"),
 ("C95", R, ["C95_placeholder_refuted", "C95_exact"],
  "refuted: eleven such texts are reported, exactly the ones listed in C95_exact"),
 ("C96", R, ["C96_names", "C96_model_refuted"],
  "true of browser, engine, brand and operating system; false of models"),
 ("C97", P, ["C97_chrome", "C97_edge", "C97_firefox", "C97_release"],
  "nine families of user agents with symbolic versions; the version of Mac OS X is not claimed"),
 ("C98", R, ["C98_frozen", "C98_desktop_refuted"],
  "true of versions N.0.0.0 (Chrome, Edge) and N.0 (Firefox) for every N; false of other versions"),
 ("C99", R, ["C99_edge", "C99_firefox", "C99_chrome", "C99_engine_refuted"],
  "true of Edge and Firefox; for Chrome the exact ranges are proved, which makes the claim false for 3 to 9 and 100 to 279"),
 ("C100", R, ["C100_ipad", "C100_iphone", "C100_tablet_refuted"],
  "false of every iPad and iPhone: for all versions the answer is the phablet Apple iPhone X"),
 ("C101", P, ["C101_chrome_mobile", "C101_release"],
  "version numbers of at least two characters, releases of any length; the device is the subject of C88"),
 ("C102", R, ["C102_library", "C102_device", "C102_requests", "C102_phone_refuted"],
  "the client part holds for all three; every release of python-requests is reported as a smartphone of the brand CUBOT, because that brand's pattern has the alternative `QUEST` without a boundary"),
 ("C103", P, ["C103_safari", "C103_release"],
  "version numbers of at least two characters; iOS 19 is the exception described in C94; the device is the subject of C100"),
 ("C104", P, ["C104_match", "C104_shipped"],
  "C77 says whether a pattern matches, C104 which match is found; an iteration of an unbounded repetition consumes something"),
 ("C105", R, ["C105_browser", "C105_release", "C105_release_refuted"],
  "the part about the browser holds for all versions; the part about the release holds unless the version of the browser starts with 19 and is refuted there: Firefox 19.2 on iOS 12.4 is reported with the release 26.$1"),
 ("C106", P, ["C106_browser", "C106_release"],
  "the user agents are those of Chrome on the three systems followed by the name and version of the browser; the version needs at least two characters, as in C97"),
 ("C107", R, ["C107_client", "C107_version", "C107_list", "C107_name", "C107_group_refuted"],
  "holds for numbers from -128 to 127; others are cut to their last eight bits, so that $257 refers to group 1; what happens to texts that are no number is proved as well"),
 ("C108", R, ["C108_reference", "C108_total", "C108_unique", "C108_ignored_refuted"],
  "the fate of every number is proved: a missing group is ignored only from twice the number of groups on, other missing groups and the remainders 192 to 254 panic, and the remainders 128 to 191 read the group of the number less 128"),
 ("C109", R, ["C109_version", "C109_name", "C109_list", "C109_ignored_refuted"],
  "the fate of every text is proved; it is that of C108, with group 1 for texts that are no numbers; in lists of versions the remainder 255 empties the version instead of being ignored"),
]
out = {"claims": [{"property": a, "status": b, "theorems": c, "note": d} for a, b, c, d in CLAIMS]}
path = os.path.join(os.path.dirname(os.path.abspath(__file__)), "..", "MANIFEST.json")
with open(path, "w") as f:
    json.dump(out, f, indent=1, ensure_ascii=False)
    f.write("\n")
