{
 "claims": [
  {
   "property": "C01",
   "status": "proved",
   "theorems": [
    "C01_quote_split"
   ],
   "note": "for both tokeniser settings, all word lists"
  },
  {
   "property": "C02",
   "status": "proved",
   "theorems": [
    "C02_line_means",
    "C02_last_value_wins",
    "C02_last_flag_wins",
    "C02_default",
    "C02_reorder"
   ],
   "note": "tables without positionals; the reading of a line is specified in ArgSpec.v"
  },
  {
   "property": "C03",
   "status": "proved",
   "theorems": [
    "C03_unknown_option",
    "C03_missing_required",
    "C03_failures_are_parse_errors",
    "C03_unknown_with_blank_refuted",
    "C03_command_unknown",
    "C03_command_missing",
    "C03_refused_not_recorded",
    "C03_accepted_recorded_once",
    "C03_volgroup_refuted",
    "C03_lenient_refuted"
   ],
   "note": "argument parser part for all tables and lines; command part for every live command of every version's handler after any history, except the commands of `lenient` (volgroup, key, auth*, ...), for which the claim is false (C03_volgroup_refuted, C03_lenient_refuted); recording part for the 23 commands that make data objects; unknown words containing a blank are taken for positionals by argparse (C03_unknown_with_blank_refuted)"
  },
  {
   "property": "C04",
   "status": "proved",
   "theorems": [
    "C04_value_attached_or_separate",
    "C04_whole_line",
    "C04_dash_value_refuted"
   ],
   "note": "values that begin with a dash are excluded by the statement; C04_dash_value_refuted shows the restriction is needed"
  },
  {
   "property": "C05",
   "status": "proved",
   "theorems": [
    "C05_join_then_split",
    "C05_items_clean",
    "C05_piecewise"
   ],
   "note": ""
  },
  {
   "property": "C06",
   "status": "proved",
   "theorems": [
    "C06_idempotent",
    "C06_relative_unchanged",
    "C06_absolute_shape",
    "C06_same_place"
   ],
   "note": "a leading double slash is kept by normpath, so the absolute prefix is / or //"
  },
  {
   "property": "C07",
   "status": "proved",
   "theorems": [
    "C07_true",
    "C07_false",
    "C07_rejected"
   ],
   "note": ""
  },
  {
   "property": "C08",
   "status": "proved",
   "theorems": [
    "C08_number_name_number",
    "C08_unsupported_number",
    "C08_name_total",
    "C08_case_insensitive",
    "C08_fedora_names",
    "C08_rhel_names",
    "C08_DEVEL_largest"
   ],
   "note": ""
  },
  {
   "property": "C09",
   "status": "proved",
   "theorems": [
    "C09_first_version_line"
   ],
   "note": ""
  },
  {
   "property": "C10",
   "status": "proved",
   "theorems": [
    "C10_replaces_ksappend_lines",
    "C10_file",
    "C10_unchanged",
    "C10_first_failure",
    "C10_temporary_file"
   ],
   "note": ""
  },
  {
   "property": "C11",
   "status": "proved",
   "theorems": [
    "C11_comments_inert"
   ],
   "note": ""
  },
  {
   "property": "C12",
   "status": "proved",
   "theorems": [
    "C12_in_order",
    "C12_between_sections"
   ],
   "note": "C12_between_sections extends it to texts with sections."
  },
  {
   "property": "C13",
   "status": "proved",
   "theorems": [
    "C13_later_lines",
    "C13_first_error",
    "C13_reported_line"
   ],
   "note": "C13_first_error: state, error and line number of the first failing command; C13_later_lines: nothing after it matters; C13_reported_line: every error belongs to a first failing line and carries its number."
  },
  {
   "property": "C14",
   "status": "proved",
   "theorems": [
    "C14_all_lines",
    "C14_count",
    "C14_misquoted_refuted",
    "C14_empty_word_refuted"
   ],
   "note": "For texts of well-formed command lines. A line that cannot be split into words, or whose first word is empty, ends parsing even when errors are not fatal (C14_misquoted_refuted, C14_empty_word_refuted)."
  },
  {
   "property": "C15",
   "status": "proved",
   "theorems": [
    "C15_paste",
    "C15_not_followed",
    "C15_script_body_refuted",
    "C15_relative_names_refuted",
    "C15_missing_not_fatal_refuted"
   ],
   "note": "Hypotheses: missing includes are fatal, files have closed sections, names do not depend on the including file's directory; without them the claim is false (the _refuted theorems)."
  },
  {
   "property": "C16",
   "status": "proved",
   "theorems": [
    "C16_open_at_end",
    "C16_next_section",
    "C16_no_script"
   ],
   "note": "versions from F8; texts whose section structure does not hide in includes; %end lines are recognised as in the parser"
  },
  {
   "property": "C17",
   "status": "proved",
   "theorems": [
    "C17_unknown_command",
    "C17_unknown_in_file",
    "C17_unknown_section_fatal",
    "C17_section_kept",
    "C17_same_lines",
    "C17_verbatim_refuted",
    "C17_two_sections_refuted"
   ],
   "note": "sections and commands; C17_unknown_in_file for whole files"
  },
  {
   "property": "C18",
   "status": "proved",
   "theorems": [
    "C18_script_verbatim",
    "C18_script_sequence"
   ],
   "note": "versions from F8; lines that begin with a registered section name or are %end or (when followed) %include lines are not script text"
  },
  {
   "property": "C19",
   "status": "proved",
   "theorems": [
    "C19_script_round_trip",
    "C19_all_scripts",
    "C19_interpreter_refuted"
   ],
   "note": "versions from F8, any number of scripts"
  },
  {
   "property": "C20",
   "status": "proved",
   "theorems": [
    "C20_blank_adds_nothing",
    "C20_next_script",
    "C20_blank_then_script",
    "C20_following_refuted"
   ],
   "note": "versions from F8. The statement was amended: its first form said that a blank section does not influence the following scripts at all, which is false because the blank text is kept and prepended to the next script of the same kind (C20_following_refuted)."
  },
  {
   "property": "C21",
   "status": "proved",
   "theorems": [
    "C21_lists_are_sets",
    "C21_preserved"
   ],
   "note": ""
  },
  {
   "property": "C22",
   "status": "proved",
   "theorems": [
    "C22_last_mention_decides",
    "C22_on_top_of",
    "C22_never_both",
    "C22_one_call_refuted"
   ],
   "note": "lines handed over one per call, as the %packages section does; C22_one_call_refuted shows a single call with several lines can leave a package in both lists"
  },
  {
   "property": "C23",
   "status": "proved",
   "theorems": [
    "C23_group_standing",
    "C23_exclusions_remembered",
    "C23_caret_refuted"
   ],
   "note": "group options spelled out in full; names beginning with a caret excluded (C23_caret_refuted)"
  },
  {
   "property": "C24",
   "status": "proved",
   "theorems": [
    "C24_last_environment"
   ],
   "note": ""
  },
  {
   "property": "C25",
   "status": "proved",
   "theorems": [
    "C25_round_trip",
    "C25_same_text",
    "C25_nothing",
    "C25_parsed",
    "C25_parse_write_parse",
    "C25_reselected_refuted",
    "C25_default_environment_refuted",
    "C25_two_sections_refuted"
   ],
   "note": "For every version, text before the section, and selection; the stated conditions are shown to be needed by three _refuted theorems (reselected group/environment, --default with an environment, two sections with contradicting headers)."
  },
  {
   "property": "C26",
   "status": "proved",
   "theorems": [
    "C26_accepted_iff",
    "C26_rejected",
    "C26_recorded",
    "C26_contradiction"
   ],
   "note": "all version numbers; options spelled out with values attached (abbreviations and separate values are C04's subject)"
  },
  {
   "property": "C27",
   "status": "proved",
   "theorems": [
    "C27_versions",
    "C27_rhel7_refuted",
    "C27_shared",
    "C27_instances",
    "C27_classes_stay",
    "C27_only_registered",
    "C27_two_classes_refuted"
   ],
   "note": "C27_two_classes_refuted shows why one class per class name is needed"
  },
  {
   "property": "C28",
   "status": "proved",
   "theorems": [
    "C28_order",
    "C28_new_permutation",
    "C28_permutation"
   ],
   "note": "for handlers reached by any command lines, resets of unaliased names and attribute calls; masking empties the output (C30_not_written)"
  },
  {
   "property": "C29",
   "status": "proved",
   "theorems": [
    "C29_reset",
    "C29_as_new",
    "C29_unknown",
    "C29_alias_refuted",
    "C29_masked_refuted"
   ],
   "note": "statement restricted to names without aliases; C29_alias_refuted and C29_masked_refuted are findings"
  },
  {
   "property": "C30",
   "status": "proved",
   "theorems": [
    "C30_masked",
    "C30_kept",
    "C30_objects",
    "C30_unregistered",
    "C30_not_written"
   ],
   "note": "for every handler; a finding: masking also removes the kept commands from the output (C30_not_written)"
  },
  {
   "property": "C31",
   "status": "proved",
   "theorems": [
    "C31_deprecated",
    "C31_removed"
   ],
   "note": "For every version's handler in use (any lines, resets and calls before). The classes of base.py, inheritance and the maps of all 38 handlers are modelled; everything other classes define is a parameter."
  },
  {
   "property": "C32",
   "status": "proved",
   "theorems": [
    "C32_commands",
    "C32_data",
    "C32_data_refuted",
    "C32_rhel",
    "C32_rhel_refuted"
   ],
   "note": "Over the class table and handler maps generated from the source. The four exceptions are shown by C32_data_refuted, the RHEL backports by C32_rhel_refuted."
  },
  {
   "property": "C33",
   "status": "proved",
   "theorems": [
    "C33_last_given",
    "C33_words"
   ],
   "note": "for every live command of the table `storing`, in every version, any sequence of accepted lines; the attributes set by the command's own code are named in the table"
  },
  {
   "property": "C34",
   "status": "proved",
   "theorems": [
    "C34_attributes",
    "C34_command"
   ],
   "note": "instance attributes; class attributes are not modelled"
  },
  {
   "property": "C35",
   "status": "proved",
   "theorems": [
    "C35_exclusive",
    "C35_kickstart",
    "C35_other_versions_refuted"
   ],
   "note": "For every version that has the checks (RHEL6 and F20 and later), any sequence of command lines and any kickstart text; other versions are shown to accept both."
  },
  {
   "property": "C36",
   "status": "proved",
   "theorems": [
    "C36_select",
    "C36_deselect",
    "C36_read_method",
    "C36_read",
    "C36_write",
    "C36_last_line_refuted"
   ],
   "note": "names of methods and class attributes of the proxy are excluded; C36_last_line_refuted is a finding: with two method lines the order of the list decides, not the last line"
  },
  {
   "property": "C37",
   "status": "proved",
   "theorems": [
    "C37_recorded",
    "C37_outside_refused"
   ],
   "note": "the rules are the table storage_rules (volgroup, logvol, part, raid, btrfs, per version); C37_outside_refused covers rules about attributes the command's own code does not assign (the others are covered by C37_recorded)"
  },
  {
   "property": "C38",
   "status": "partial",
   "theorems": [
    "C38_sshkey_refuted",
    "C38_mount_refuted",
    "C38_keyboard_refuted",
    "C38_zero_refuted",
    "C38_noformat_refuted",
    "C38_command_partial",
    "C38_data_partial",
    "C38_refuted",
    "C38_lock_refuted"
   ],
   "note": "172 pairs of classes (30 commands that store on themselves with 86 classes; 10 commands with data objects with 86 pairs of classes, among them part and logvol; in all versions that use them), for lines of options and, where the command takes one (part, logvol, rootpw, lang, timezone), of one word besides options, and all values that RoundSpec.writable admits: options left out or with tidy values, options that __str__ does write, values the command does not change, and for url, rootpw and logging one of the cases of RoundSpec.cases (a url with exactly one source, a root password or a locked account). Missing: commands that take several words or read unknown options themselves (raid, volgroup, btrfs, keyboard, ...) and the classes of firewall, reboot, upgrade, displaymode, authconfig and others listed nowhere in round_commands/round_data. C38_refuted shows that the condition on what is written is needed (user --uid=0); C38_lock_refuted shows it for rootpw --lock --iscrypted. C38_sshkey_refuted, C38_mount_refuted, C38_keyboard_refuted, C38_zero_refuted and C38_noformat_refuted are findings about commands and values outside these conditions."
  },
  {
   "property": "C39",
   "status": "partial",
   "theorems": [
    "C39_file_partial",
    "C39_commands_partial",
    "C39_whole_partial"
   ],
   "note": "C39_whole_partial: for every version from F8, every platform, script list and package selection that a file can express, and every handler made by accepted lines that C38 speaks about (WholeSpec and [built]: commands of round_commands given once, commands of round_data given any number of times, the lines of auth, authconfig and authselect, given any number of times, storage commands that exclude each other not together), the file reads back without error to the same platform, scripts, packages, settings and text. C39_file_partial is the same for any commands whose text is known to read back. Missing: the commands C38 does not cover; commands given more than once when they store on themselves; sections kept as raw text do not round trip (C17_verbatim_refuted). The classes of method, multipath and realm are parameters and are taken to be written as nothing when not given."
  },
  {
   "property": "C40",
   "status": "proved",
   "theorems": [
    "C40_put_back_is_a_list",
    "C40_two_puts_refuted",
    "C40_empty_line_refuted"
   ],
   "note": "under the discipline the parser follows (one put-back at a time, never the empty line); both restrictions shown necessary by C40_two_puts_refuted and C40_empty_line_refuted"
  },
  {
   "property": "C41",
   "status": "proved",
   "theorems": [
    "C41_driverdisk_line",
    "C41_driverdisk_refuted",
    "C41_repo_recorded",
    "C41_repo_refused",
    "C41_rootpw",
    "C41_rootpw_case",
    "C41_accepted_obeys",
    "C41_timesource_recorded",
    "C41_timesource_refused",
    "C41_url_line",
    "C41_url_recorded",
    "C41_url_case",
    "C41_url_refuted"
   ],
   "note": "rules are the table own_rules, repo_rules for repo, url_sources for url, time_sources for timesource, disk_sources for driverdisk, and C41_rootpw"
  },
  {
   "property": "C42",
   "status": "proved",
   "theorems": [
    "C42_words",
    "C42_unreadable"
   ],
   "note": "shlex of Python 3.11 in POSIX mode, as modelled in Shlex.v"
  },
  {
   "property": "C43",
   "status": "proved",
   "theorems": [
    "C43_dashes",
    "C43_refused",
    "C43_options"
   ],
   "note": "argparse of Python 3.11 as modelled in ArgParse.v, any option table; C43_options compares lines with equally many words after --"
  },
  {
   "property": "C44",
   "status": "proved",
   "theorems": [
    "C44_moved",
    "C44_order"
   ],
   "note": "All versions and all modelled commands; method, multipath and realm (whose behaviour is a parameter or modelled apart) are excluded by modelled_line. C44_moved is the statement for one line, C44_order the one for whole sequences."
  },
  {
   "property": "C45",
   "status": "proved",
   "theorems": [
    "C45_commands",
    "C45_data"
   ],
   "note": "Classes with one name must be one class, as they are objects of one Python class."
  },
  {
   "property": "C46",
   "status": "proved",
   "theorems": [
    "C46_named",
    "C46_stored",
    "C46_recorded"
   ],
   "note": "C46_named holds for every option of every class; C46_stored and C46_recorded say what happens in a line that consists of options only, for the commands of C33 and C03 and attributes the command does not compute itself (the list own)."
  },
  {
   "property": "C47",
   "status": "proved",
   "theorems": [
    "C47_keywords",
    "C47_displaymode_refuted",
    "C47_removed",
    "C47_removed_refuted"
   ],
   "note": "C47_keywords: attributes of fresh objects, for every class of a version but those in set_apart; C47_removed: removed attributes stay away after any lines. The exceptions are findings (C47_displaymode_refuted, C47_removed_refuted)."
  },
  {
   "property": "C48",
   "status": "proved",
   "theorems": [
    "C48_line",
    "C48_file"
   ],
   "note": "C48_line: one line in any reachable state; C48_file: any lines from the start. FC6_MultiPath and F19_Realm are outside the model."
  },
  {
   "property": "C49",
   "status": "proved",
   "theorems": [
    "C49_deviceprobe",
    "C49_deviceprobe_round",
    "C49_deviceprobe_refuted",
    "C49_realm_state",
    "C49_realm_line",
    "C49_realm_once",
    "C49_realm_written",
    "C49_kept_line",
    "C49_kept_again",
    "C49_empty_name_refuted",
    "C49_line_refuted"
   ],
   "note": "The class of realm.py is Realm.v, taken for the parameter rest. C49_kept_*: auth, authconfig, authselect (translated classes). C49_deviceprobe_refuted: deviceprobe writes its words without quotes."
  },
  {
   "property": "C50",
   "status": "proved",
   "theorems": [
    "C50_string",
    "C50_constant",
    "C50_refused",
    "C50_has_commands",
    "C50_names_refuted",
    "C50_long_names_refuted"
   ],
   "note": "C50_names_refuted and C50_long_names_refuted show the names that are known but refused."
  },
  {
   "property": "C51",
   "status": "proved",
   "theorems": [
    "C51_accepts",
    "C51_text",
    "C51_counts",
    "C51_cleans_up",
    "C51_exit_status_refuted",
    "C51_empty_refuted",
    "C51_beside_refuted",
    "C51_list_refuted"
   ],
   "note": "Tools.v; the dispatcher is any one, so warnings turned into errors are a matter of which one is taken. The four _refuted theorems are findings."
  },
  {
   "property": "C52",
   "status": "partial",
   "theorems": [
    "C52_again_partial",
    "C52_writes",
    "C52_untouched",
    "C52_value",
    "C52_validated"
   ],
   "note": "Proved: what is written and when. C52_again_partial, flattening twice, holds for the handlers of C39 (built); missing: handlers with other commands."
  },
  {
   "property": "C53",
   "status": "proved",
   "theorems": [
    "C53_lines",
    "C53_clear",
    "C53_as_file",
    "C53_first_word",
    "C53_later_word",
    "C53_empty_line",
    "C53_one_by_one",
    "C53_offers",
    "C53_quotes_refuted"
   ],
   "note": "words_only: the handler looks at the words of a line, at its number only as a label, and not at the newline. C53_quotes_refuted is a finding."
  },
  {
   "property": "C54",
   "status": "proved",
   "theorems": [
    "C54_removed",
    "C54_deprecated",
    "C54_added",
    "C54_removed_lines",
    "C54_deprecated_lines",
    "C54_added_lines",
    "C54_others",
    "C54_option_removed_lines",
    "C54_option_added_lines",
    "C54_in_order",
    "C54_same",
    "C54_printed",
    "C54_refused",
    "C54_new_options_refuted",
    "C54_back_refuted",
    "C54_already_refuted"
   ],
   "note": "For the commands of `lenient` (auth, key, volgroup, method, multipath, realm, ...), which ignore or keep words they do not know, nothing is said about lines with listed options."
  },
  {
   "property": "C55",
   "status": "proved",
   "theorems": [
    "C55_state",
    "C55_repeated",
    "C55_begins",
    "C55_joins",
    "C55_accepted",
    "C55_missing",
    "C55_unchanged",
    "C55_text",
    "C55_file",
    "C55_stuck_refuted",
    "C55_second_refuted",
    "C55_words",
    "C55_stray_refuted",
    "C55_slash_refuted"
   ],
   "note": "The class of multipath.py is Multipath.v, taken for the parameter rest."
  },
  {
   "property": "C56",
   "status": "proved",
   "theorems": [
    "C56_file",
    "C56_no_file",
    "C56_url",
    "C56_effect",
    "C56_copies",
    "C56_copy_reads",
    "C56_apart",
    "C56_not_utf8_refuted",
    "C56_path_refuted",
    "C56_utf8"
   ],
   "note": "requests, the file system, write permission and the encoding of text files are parameters. shutil.copyfile without links and special files; the path of Python 2 is not modelled."
  },
  {
   "property": "C57",
   "status": "proved",
   "theorems": [
    "C57_install",
    "C57_install_round",
    "C57_root_refuted",
    "C57_ending",
    "C57_ending_round",
    "C57_display",
    "C57_display_round",
    "C57_halt_refuted",
    "C57_refused_refuted"
   ],
   "note": "C57_halt_refuted and C57_refused_refuted are findings. Before FC6 the words of the line are not read at all, so any are accepted. C57_root_refuted too: the device of --root-device is written without quotes."
  },
  {
   "property": "C58",
   "status": "proved",
   "theorems": [
    "C58_accepts",
    "C58_key",
    "C58_refused",
    "C58_round",
    "C58_quotes_refuted"
   ],
   "note": "C58_quotes_refuted is a finding: the key is written without quotes."
  },
  {
   "property": "C59",
   "status": "proved",
   "theorems": [
    "C59_switch",
    "C59_round"
   ],
   "note": "The warning zerombr gives before F9 for ignored words is not part of the statement. Not yet tested against edited models: those rebuilds were stopped before they finished."
  }
 ]
}