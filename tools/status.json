{
 "C01": [
  "proved",
  "for both tokeniser settings, all word lists"
 ],
 "C02": [
  "proved",
  "tables without positionals; the reading of a line is specified in ArgSpec.v"
 ],
 "C03": [
  "proved",
  "argument parser part for all tables and lines; command part for every live command of every version's handler after any history, except the commands of `lenient` (volgroup, key, auth*, ...), for which the claim is false (C03_volgroup_refuted, C03_lenient_refuted); recording part for the 23 commands that make data objects; unknown words containing a blank are taken for positionals by argparse (C03_unknown_with_blank_refuted)"
 ],
 "C04": [
  "proved",
  "values that begin with a dash are excluded by the statement; C04_dash_value_refuted shows the restriction is needed"
 ],
 "C05": [
  "proved",
  ""
 ],
 "C06": [
  "proved",
  "a leading double slash is kept by normpath, so the absolute prefix is / or //"
 ],
 "C07": [
  "proved",
  ""
 ],
 "C08": [
  "proved",
  ""
 ],
 "C09": [
  "proved",
  ""
 ],
 "C10": [
  "proved",
  ""
 ],
 "C21": [
  "proved",
  ""
 ],
 "C22": [
  "proved",
  "lines handed over one per call, as the %packages section does; C22_one_call_refuted shows a single call with several lines can leave a package in both lists"
 ],
 "C23": [
  "proved",
  "group options spelled out in full; names beginning with a caret excluded (C23_caret_refuted)"
 ],
 "C24": [
  "proved",
  ""
 ],
 "C40": [
  "proved",
  "under the discipline the parser follows (one put-back at a time, never the empty line); both restrictions shown necessary by C40_two_puts_refuted and C40_empty_line_refuted"
 ],
 "C11": [
  "proved",
  ""
 ],
 "C12": [
  "proved",
  "C12_between_sections extends it to texts with sections."
 ],
 "C13": [
  "proved",
  "C13_first_error: state, error and line number of the first failing command; C13_later_lines: nothing after it matters; C13_reported_line: every error belongs to a first failing line and carries its number."
 ],
 "C14": [
  "proved",
  "For texts of well-formed command lines. A line that cannot be split into words, or whose first word is empty, ends parsing even when errors are not fatal (C14_misquoted_refuted, C14_empty_word_refuted)."
 ],
 "C15": [
  "proved",
  "Hypotheses: missing includes are fatal, files have closed sections, names do not depend on the including file's directory; without them the claim is false (the _refuted theorems)."
 ],
 "C16": [
  "proved",
  "versions from F8; texts whose section structure does not hide in includes; %end lines are recognised as in the parser"
 ],
 "C17": [
  "proved",
  "sections and commands; C17_unknown_in_file for whole files"
 ],
 "C18": [
  "proved",
  "versions from F8; lines that begin with a registered section name or are %end or (when followed) %include lines are not script text"
 ],
 "C19": [
  "proved",
  "versions from F8, any number of scripts"
 ],
 "C20": [
  "proved",
  "versions from F8. The statement was amended: its first form said that a blank section does not influence the following scripts at all, which is false because the blank text is kept and prepended to the next script of the same kind (C20_following_refuted)."
 ],
 "C26": [
  "proved",
  "all version numbers; options spelled out with values attached (abbreviations and separate values are C04's subject)"
 ],
 "C25": [
  "proved",
  "For every version, text before the section, and selection; the stated conditions are shown to be needed by three _refuted theorems (reselected group/environment, --default with an environment, two sections with contradicting headers)."
 ],
 "C27": [
  "proved",
  "C27_two_classes_refuted shows why one class per class name is needed"
 ],
 "C28": [
  "proved",
  "for handlers reached by any command lines, resets of unaliased names and attribute calls; masking empties the output (C30_not_written)"
 ],
 "C29": [
  "proved",
  "statement restricted to names without aliases; C29_alias_refuted and C29_masked_refuted are findings"
 ],
 "C30": [
  "proved",
  "for every handler; a finding: masking also removes the kept commands from the output (C30_not_written)"
 ],
 "C34": [
  "proved",
  "instance attributes; class attributes are not modelled"
 ],
 "C31": [
  "proved",
  "For every version's handler in use (any lines, resets and calls before). The classes of base.py, inheritance and the maps of all 38 handlers are modelled; everything other classes define is a parameter."
 ],
 "C32": [
  "proved",
  "Over the class table and handler maps generated from the source. The four exceptions are shown by C32_data_refuted, the RHEL backports by C32_rhel_refuted."
 ],
 "C35": [
  "proved",
  "For every version that has the checks (RHEL6 and F20 and later), any sequence of command lines and any kickstart text; other versions are shown to accept both."
 ],
 "C33": [
  "proved",
  "for every live command of the table `storing`, in every version, any sequence of accepted lines; the attributes set by the command's own code are named in the table"
 ],
 "C37": [
  "proved",
  "the rules are the table storage_rules (volgroup, logvol, part, raid, btrfs, per version); C37_outside_refused covers rules about attributes the command's own code does not assign (the others are covered by C37_recorded)"
 ],
 "C41": [
  "proved",
  "rules are the table own_rules, repo_rules for repo, url_sources for url, time_sources for timesource, disk_sources for driverdisk, and C41_rootpw"
 ],
 "C36": [
  "proved",
  "names of methods and class attributes of the proxy are excluded; C36_last_line_refuted is a finding: with two method lines the order of the list decides, not the last line"
 ],
 "C42": [
  "proved",
  "shlex of Python 3.11 in POSIX mode, as modelled in Shlex.v"
 ],
 "C38": [
  "partial",
  "172 pairs of classes (30 commands that store on themselves with 86 classes; 10 commands with data objects with 86 pairs of classes, among them part and logvol; in all versions that use them), for lines of options and, where the command takes one (part, logvol, rootpw, lang, timezone), of one word besides options, and all values that RoundSpec.writable admits: options left out or with tidy values, options that __str__ does write, values the command does not change, and for url, rootpw and logging one of the cases of RoundSpec.cases (a url with exactly one source, a root password or a locked account). Missing: commands that take several words or read unknown options themselves (raid, volgroup, btrfs, keyboard, ...) and the classes of firewall, reboot, upgrade, displaymode, authconfig and others listed nowhere in round_commands/round_data. C38_refuted shows that the condition on what is written is needed (user --uid=0); C38_lock_refuted shows it for rootpw --lock --iscrypted. C38_sshkey_refuted, C38_mount_refuted, C38_keyboard_refuted, C38_zero_refuted and C38_noformat_refuted are findings about commands and values outside these conditions."
 ],
 "C43": [
  "proved",
  "argparse of Python 3.11 as modelled in ArgParse.v, any option table; C43_options compares lines with equally many words after --"
 ],
 "C39": [
  "partial",
  "C39_whole_partial: for every version from F8, every platform, script list and package selection that a file can express, and every handler made by accepted lines that C38 speaks about (WholeSpec and [built]: commands of round_commands given once, commands of round_data given any number of times, the lines of auth, authconfig and authselect, given any number of times, storage commands that exclude each other not together), the file reads back without error to the same platform, scripts, packages, settings and text. C39_file_partial is the same for any commands whose text is known to read back. Missing: the commands C38 does not cover; commands given more than once when they store on themselves; sections kept as raw text do not round trip (C17_verbatim_refuted). The classes of method, multipath and realm are parameters and are taken to be written as nothing when not given."
 ],
 "C44": [
  "proved",
  "All versions and all modelled commands; method, multipath and realm (whose behaviour is a parameter or modelled apart) are excluded by modelled_line. C44_moved is the statement for one line, C44_order the one for whole sequences."
 ],
 "C45": [
  "proved",
  "Classes with one name must be one class, as they are objects of one Python class."
 ],
 "C46": [
  "proved",
  "C46_named holds for every option of every class; C46_stored and C46_recorded say what happens in a line that consists of options only, for the commands of C33 and C03 and attributes the command does not compute itself (the list own)."
 ],
 "C47": [
  "proved",
  "C47_keywords: attributes of fresh objects, for every class of a version but those in set_apart; C47_removed: removed attributes stay away after any lines. The exceptions are findings (C47_displaymode_refuted, C47_removed_refuted)."
 ],
 "C48": [
  "proved",
  "C48_line: one line in any reachable state; C48_file: any lines from the start. FC6_MultiPath and F19_Realm are outside the model."
 ],
 "C49": [
  "proved",
  "The class of realm.py is Realm.v, taken for the parameter rest. C49_kept_*: auth, authconfig, authselect (translated classes). C49_deviceprobe_refuted: deviceprobe writes its words without quotes."
 ],
 "C50": [
  "proved",
  "C50_names_refuted and C50_long_names_refuted show the names that are known but refused."
 ],
 "C51": [
  "proved",
  "Tools.v; the dispatcher is any one, so warnings turned into errors are a matter of which one is taken. The four _refuted theorems are findings."
 ],
 "C52": [
  "partial",
  "Proved: what is written and when. C52_again_partial, flattening twice, holds for the handlers of C39 (built); missing: handlers with other commands."
 ],
 "C53": [
  "proved",
  "words_only: the handler looks at the words of a line, at its number only as a label, and not at the newline. C53_quotes_refuted is a finding."
 ],
 "C54": [
  "proved",
  "For the commands of `lenient` (auth, key, volgroup, method, multipath, realm, ...), which ignore or keep words they do not know, nothing is said about lines with listed options."
 ],
 "C55": [
  "proved",
  "The class of multipath.py is Multipath.v, taken for the parameter rest."
 ],
 "C56": [
  "proved",
  "requests, the file system, write permission and the encoding of text files are parameters. shutil.copyfile without links and special files; the path of Python 2 is not modelled."
 ],
 "C57": [
  "proved",
  "C57_halt_refuted and C57_refused_refuted are findings. Before FC6 the words of the line are not read at all, so any are accepted. C57_root_refuted too: the device of --root-device is written without quotes."
 ],
 "C58": [
  "proved",
  "C58_quotes_refuted is a finding: the key is written without quotes."
 ],
 "C59": [
  "proved",
  "The warning zerombr gives before F9 for ignored words is not part of the statement. Not yet tested against edited models: those rebuilds were stopped before they finished."
 ]
}