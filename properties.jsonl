{"id": "C01", "title": "Quoted words survive tokenisation", "statement": "Take any list of strings, shell-quote each one the way realm does when it writes its join line, and separate them with blanks. Tokenising the resulting line gives back exactly the original list: no word is split, merged, dropped or altered.", "quantifier": "all lists of strings, of any length and content", "why_tests_cant": "quoting bugs hide in rare character combinations (quotes inside quotes, backslashes, empty words); the input space is infinite", "anchors": ["pykickstart/commands/realm.py:F19_Realm.__str__", "pykickstart/parser.py:KickstartParser._stateMachine (shlex.split)", "python stdlib shlex.quote/shlex.split"]}
{"id": "C02", "title": "Option lines mean the last value given per option", "statement": "A command line made of flags and --option=value words that the option table of the command knows, is parsed to the namespace in which every destination has the value of the last word that writes to it (or its declared default). Words that write different destinations can be reordered freely.", "quantifier": "all option tables, all lists of known option words, all values", "why_tests_cant": "the number of option subsets, orders and values is unbounded", "anchors": ["pykickstart/options.py:KSOptionParser", "python stdlib argparse.ArgumentParser.parse_known_args"]}
{"id": "C03", "title": "Unknown or incomplete options are never silently accepted", "statement": "If a command line contains a double-dash word that is not (a prefix of) an option of that command's table, or omits a required option, the command raises a KickstartParseError carrying the line number. Nothing is recorded for that line by commands that use a fresh data object. (Amended: the commands listed by `lenient` in PropsStore.v, among them volgroup and key, do not refuse unknown words; this is shown by C03_volgroup_refuted and C03_lenient_refuted.)", "quantifier": "all option tables, all argument lists; all command lines of every version's handler, after any history", "why_tests_cant": "absence of silent acceptance is a statement about all inputs", "anchors": ["pykickstart/options.py:KSOptionParser.error", "pykickstart/options.py:KSOptionParser.parse_args"]}
{"id": "C04", "title": "--opt value and --opt=value are equivalent", "statement": "For every option that takes one value and every value that does not begin with a dash, giving the value as a separate word or after an equals sign gives the same namespace and the same remaining words.", "quantifier": "all option tables, options taking one argument, all values, any position in the line", "why_tests_cant": "infinitely many values and positions", "anchors": ["pykickstart/options.py:KSOptionParser"]}
{"id": "C05", "title": "Comma lists: splitting inverts joining", "statement": "commaSplit(','.join(l)) == l for every list of non-empty, stripped, comma-free strings; and for every input the result contains only non-empty stripped comma-free strings.", "quantifier": "all strings, all lists of strings", "why_tests_cant": "string edge cases are unbounded", "anchors": ["pykickstart/options.py:commaSplit"]}
{"id": "C06", "title": "Mount point normalisation is stable", "statement": "The mountpoint type is idempotent, leaves words that do not begin with a slash unchanged, and maps absolute paths to absolute paths without empty, '.' or '..' components.", "quantifier": "all strings", "why_tests_cant": "path spellings are unbounded", "anchors": ["pykickstart/options.py:mountpoint", "python stdlib posixpath.normpath"]}
{"id": "C07", "title": "Boolean option values", "statement": "ksboolean accepts exactly the case variants of on/yes/true/1 (true) and off/no/false/0 (false) and raises for every other string.", "quantifier": "all strings", "why_tests_cant": "infinitely many rejected strings", "anchors": ["pykickstart/options.py:ksboolean"]}
{"id": "C08", "title": "Version names and numbers round trip", "statement": "For each supported version constant v, stringToVersion(versionToString(v)) == v; lower/upper case spelling does not matter; an unsupported number or name raises KickstartVersionError. DEVEL is the largest version.", "quantifier": "all version constants, all integers, all strings", "why_tests_cant": "the rejected inputs form an infinite set; the case variants are exponential", "anchors": ["pykickstart/version.py:stringToVersion", "pykickstart/version.py:versionToString", "pykickstart/version.py:versionMap"]}
{"id": "C09", "title": "A file's version is that of its first #version= line", "statement": "versionFromFile returns the version named by the first line that starts with '#version=', whatever precedes and follows it, DEVEL if there is none, and raises if the first such line names no version.", "quantifier": "all file contents", "why_tests_cant": "file contents are unbounded", "anchors": ["pykickstart/version.py:versionFromFile"]}
{"id": "C10", "title": "Preprocessing only replaces %ksappend lines", "statement": "preprocessFromStringToString returns the concatenation, in order, of the input's lines with each %ksappend line replaced by the content of the file it names; inputs without %ksappend come back unchanged; the first %ksappend line that cannot be loaded raises.", "quantifier": "all input strings, all file systems", "why_tests_cant": "input length and number of appended files are unbounded", "anchors": ["pykickstart/parser.py:_preprocessStateMachine", "pykickstart/parser.py:preprocessFromStringToString"]}
{"id": "C11", "title": "Comments and blank lines are inert", "statement": "Inserting or deleting a comment line (other than #platform=) or a blank line in the command part of a kickstart changes nothing in the result of parsing except line numbers.", "quantifier": "all kickstart texts, all handlers, all positions in the command part", "why_tests_cant": "positions and texts are unbounded", "anchors": ["pykickstart/parser.py:KickstartParser._stateMachine", "pykickstart/parser.py:KickstartParser._isBlankOrComment"]}
{"id": "C12", "title": "Command lines are executed in file order, one dispatch each", "statement": "Parsing a text that contains only command lines is the same as calling the handler's dispatcher once per line, in order, with that line's words and line number, stopping at the first failure when errors are fatal.", "quantifier": "all texts of command lines, all handlers and handler states", "why_tests_cant": "the number and kind of lines is unbounded", "anchors": ["pykickstart/parser.py:KickstartParser._stateMachine", "pykickstart/base.py:KickstartHandler.dispatcher"]}
{"id": "C13", "title": "With fatal errors the first bad line wins", "statement": "When errors are fatal, parsing raises exactly the error of the first failing line, that line's number is reported, every earlier line has taken effect and no later line has any effect.", "quantifier": "all texts, all positions of the first error", "why_tests_cant": "prefix behaviour must hold for every prefix", "anchors": ["pykickstart/parser.py:KickstartParser._tryFunc", "pykickstart/parser.py:KickstartParser._stateMachine"]}
{"id": "C14", "title": "With non-fatal errors every good line takes effect and errors are counted", "statement": "When errors are not fatal, errorsCount equals the number of failing command lines and the handler ends in the state obtained by running all lines in order.", "quantifier": "all texts of well-quoted command lines, all handlers", "why_tests_cant": "number of lines and failures is unbounded", "anchors": ["pykickstart/parser.py:KickstartParser._tryFunc", "tools/ksvalidator.py"]}
{"id": "C15", "title": "Including a file is the same as pasting its lines", "statement": "In the command part, '%include f' leads to the same handler state as replacing the line with the content of f (up to line numbers), when f's sections are closed, missing includes are fatal and file names do not depend on the directory of the file they are written in; includes may nest to any depth. With followIncludes off the line has no effect.", "quantifier": "all texts, all included files, all nesting depths", "why_tests_cant": "nesting depth and contents are unbounded", "anchors": ["pykickstart/parser.py:KickstartParser._handleInclude", "pykickstart/parser.py:KickstartParser.readKickstart"]}
{"id": "C16", "title": "A section must be closed", "statement": "For version F8 and later, a text in which a section is not closed by %end before the next section header or the end of the input raises KickstartParseError; no script of that section is added.", "quantifier": "all section bodies, all versions >= F8", "why_tests_cant": "section bodies are unbounded", "anchors": ["pykickstart/parser.py:KickstartParser._readSection"]}
{"id": "C17", "title": "Unknown sections and commands", "statement": "An unregistered section name raises when unknownSectionIsFatal, otherwise the whole section is kept and written back; an unregistered command name always raises KickstartParseError with its line number and leaves the handler unchanged.", "quantifier": "all names, texts and handlers", "why_tests_cant": "all names must be covered", "anchors": ["pykickstart/parser.py:KickstartParser._stateMachine", "pykickstart/base.py:KickstartHandler.dispatcher"]}
{"id": "C18", "title": "Script bodies are preserved verbatim", "statement": "A %pre/%post/%pre-install/%onerror/%traceback section whose body has no line beginning with a registered section name, %end or %include adds exactly one script whose text is the concatenation of its body lines and whose attributes are those of the header.", "quantifier": "all bodies, all header options, all five script types", "why_tests_cant": "bodies are arbitrary text", "anchors": ["pykickstart/parser.py:KickstartParser._readSection", "pykickstart/sections.py:ScriptSection"]}
{"id": "C19", "title": "Scripts round trip", "statement": "Writing a script and parsing it back gives a script with the same type, interpreter, chroot flag, log file, error flag and text (newline-terminated), for non-empty interpreters and log file names without shell metacharacters.", "quantifier": "all scripts with a non-blank body free of section markers", "why_tests_cant": "bodies and option values are arbitrary", "anchors": ["pykickstart/parser.py:Script.__str__", "pykickstart/sections.py:ScriptSection.handleHeader", "pykickstart/sections.py:ScriptSection.finalize"]}
{"id": "C20", "title": "A blank script section adds no script", "statement": "A script section with a blank body adds no script, and its header options do not influence the scripts that follow it. Only its blank text is put in front of the text of the next script of the same kind; sections of other kinds are not affected. (That it has no influence at all is false: C20_following_refuted.)", "quantifier": "all blank bodies, all following sections", "why_tests_cant": "history dependent", "anchors": ["pykickstart/sections.py:ScriptSection.finalize"]}
{"id": "C21", "title": "Package lists are sets", "statement": "After any sequence of add calls, packageList and excludedList are strictly sorted (hence duplicate free) and group names are unique.", "quantifier": "all sequences of add calls with any lines", "why_tests_cant": "history of arbitrary length", "anchors": ["pykickstart/parser.py:Packages.add"]}
{"id": "C22", "title": "The last mention of a package decides", "statement": "After any sequence of lines of %packages sections, a package is in packageList iff its last mention was plain, in excludedList iff its last mention was with a minus sign, and in neither if it was never mentioned; hence it is never in both.", "quantifier": "all sequences of lines, all package names", "why_tests_cant": "history of arbitrary length", "anchors": ["pykickstart/parser.py:Packages.add", "pykickstart/sections.py:PackageSection.handleLine"]}
{"id": "C23", "title": "Groups: first inclusion wins, exclusion cancels", "statement": "After any sequence of lines the group list contains g iff g was included and not excluded since; the options kept are those of the first inclusion after the last exclusion; every excluded group is remembered in order.", "quantifier": "all sequences of lines, all group names", "why_tests_cant": "history of arbitrary length", "anchors": ["pykickstart/parser.py:Packages._processGroup", "pykickstart/parser.py:Packages.add"]}
{"id": "C24", "title": "Environment: the last one wins", "statement": "After any sequence of lines the environment is that of the last '@^' line, unless a later '-@^' line with the same name cancelled it.", "quantifier": "all sequences of lines", "why_tests_cant": "history of arbitrary length", "anchors": ["pykickstart/parser.py:Packages.add"]}
{"id": "C25", "title": "%packages round trips", "statement": "Writing the package selection and parsing it back gives the same selection and the same text, provided no group or environment is both selected and excluded, no environment is selected under --default, and the header options do not contradict each other (outside these conditions it is false: see the _refuted theorems).", "quantifier": "all package selections reachable by parsing with well-formed names, all versions", "why_tests_cant": "unbounded selections", "anchors": ["pykickstart/parser.py:Packages.__str__", "pykickstart/sections.py:PackageSection"]}
{"id": "C26", "title": "%packages header options follow the syntax version", "statement": "Each %packages option is accepted exactly by the versions that define it, and contradictory options (--default with --nobase or --nocore) are rejected.", "quantifier": "all versions, all subsets of options", "why_tests_cant": "version x option combinations", "anchors": ["pykickstart/sections.py:PackageSection._getParser", "pykickstart/sections.py:PackageSection.handleHeader"]}
{"id": "C27", "title": "One command object per class; aliases share it", "statement": "After building a handler from any command map, and through any later use of it, two command names are served by the same object iff they are mapped to classes with the same name, and each name is served by an instance of its class (given that the map uses one class per class name).", "quantifier": "all command maps, all histories of command lines, resets and attribute calls", "why_tests_cant": "maps are arbitrary (mapping/commandUpdates arguments)", "anchors": ["pykickstart/base.py:KickstartHandler.registerCommand"]}
{"id": "C28", "title": "Output order is by priority then class name, each command once", "statement": "str(handler) writes every registered command with a priority exactly once, in order of priority and then class name, whatever the order of the command map.", "quantifier": "all command maps and all their permutations; all histories of the handler", "why_tests_cant": "permutations of arbitrary maps", "anchors": ["pykickstart/base.py:KickstartHandler._insertSorted", "pykickstart/base.py:KickstartHandler._setCommand", "pykickstart/base.py:KickstartHandler.__str__"]}
{"id": "C29", "title": "Resetting a command restores its fresh state and nothing else", "statement": "After resetCommand(name) for a name that shares its object with no other name, the command under that name, its attribute and its output are those of a fresh handler, and all other commands are unchanged; unknown names raise KeyError. (For a name with aliases this fails: the other names keep the old object.)", "quantifier": "all handler states and names", "why_tests_cant": "all histories before the reset", "anchors": ["pykickstart/base.py:KickstartHandler.resetCommand"]}
{"id": "C30", "title": "Masked commands are ignored, kept ones still work", "statement": "After maskAllExcept(lst), lines of commands outside lst have no effect and raise nothing; commands in lst parse as before.", "quantifier": "all handlers, lists and command lines", "why_tests_cant": "all lines and histories", "anchors": ["pykickstart/base.py:BaseHandler.maskAllExcept", "pykickstart/base.py:KickstartHandler.dispatcher"]}
{"id": "C31", "title": "Deprecated commands do nothing, removed commands always fail", "statement": "For every version, a line of a deprecated command changes no configuration data and no output and raises nothing; a line of a removed command always raises KickstartParseError with its line number.", "quantifier": "all versions, all deprecated/removed commands of that version, all arguments, all states", "why_tests_cant": "all arguments and states", "anchors": ["pykickstart/base.py:DeprecatedCommand", "pykickstart/base.py:RemovedCommand", "pykickstart/handlers/*.py"]}
{"id": "C32", "title": "Handlers never use classes of a newer syntax", "statement": "In each Fedora version's handler every command class is of that version or an earlier Fedora one, and no class of the same family lies between the two; the same holds of every data class except four named backports. A RHEL handler takes no command from a later RHEL, though it may take one from a later Fedora.", "quantifier": "all versions, all commands and data classes of that version", "why_tests_cant": "table-wide claim", "anchors": ["pykickstart/handlers/*.py", "pykickstart/version.py:versionMap"]}
{"id": "C33", "title": "Repeating a command keeps the options not given again", "statement": "For commands that store options on themselves, parsing a sequence of lines leaves each attribute that comes from the option table at the last explicitly given value or the last flag default. (Amended: attributes which the command's own code sets besides the table are listed by `storing` in PropsStore.v and are left out.)", "quantifier": "all sequences of lines", "why_tests_cant": "history of arbitrary length", "anchors": ["pykickstart/base.py:KickstartCommand.set_to_obj"]}
{"id": "C34", "title": "Attribute assignment by call ignores unknown and removed names", "statement": "Calling a command or data object with keyword arguments sets exactly the existing, non-removed attributes and leaves all else unchanged.", "quantifier": "all objects and keyword maps", "why_tests_cant": "arbitrary keyword maps", "anchors": ["pykickstart/base.py:KickstartCommand.__call__", "pykickstart/base.py:BaseData.__call__"]}
{"id": "C35", "title": "Automatic and manual partitioning exclude each other", "statement": "For versions with the checks, no accepted kickstart contains both autopart and part/raid/volgroup/logvol (or mount), in any order and with any lines between.", "quantifier": "all sequences of command lines, all orders", "why_tests_cant": "order and history are unbounded", "anchors": ["pykickstart/commands/autopart.py", "pykickstart/commands/partition.py", "pykickstart/commands/raid.py", "pykickstart/commands/logvol.py", "pykickstart/commands/volgroup.py", "pykickstart/commands/mount.py", "pykickstart/commands/reqpart.py"]}
{"id": "C36", "title": "At most one installation method is active", "statement": "Assigning one of the version's installation methods to handler.method.method selects exactly that method (its command alone is marked seen) and changes nothing else; assigning None or an unknown name leaves none selected (the latter raising AttributeError); the getter returns the first method marked seen; every other attribute read or written through handler.method goes to the selected method's command (url when none is selected).", "quantifier": "all versions, all handler histories (lines, resets, calls, assignments through the proxy), all attribute names and values", "why_tests_cant": "history of arbitrary length", "anchors": ["pykickstart/commands/method.py"]}
{"id": "C37", "title": "Accepted storage values respect the documented bounds", "statement": "In a handler of any version, after any command lines, every object recorded by volgroup, logvol, part/partition, raid or btrfs satisfies the rules of that version (reserved-percent 1..99, reserved-space >= 0, percent 0..100, size/percent exclusive, thin pool and cache options consistent, resize only of an existing partition with a size, mkfsoptions only when formatting, ...); a line whose values break a rule raises.", "quantifier": "all versions, all command-line histories, all argument lists", "why_tests_cant": "integers are unbounded", "anchors": ["pykickstart/commands/volgroup.py", "pykickstart/commands/logvol.py", "pykickstart/commands/partition.py", "pykickstart/commands/raid.py", "pykickstart/commands/btrfs.py"]}
{"id": "C38", "title": "Commands round trip through their text", "statement": "For each modelled command, writing the parsed data and parsing it again gives the same data, for values without shell metacharacters.", "quantifier": "all data values accepted by the command", "why_tests_cant": "values are unbounded", "anchors": ["pykickstart/commands/*.py"]}
{"id": "C39", "title": "Whole files round trip", "statement": "str(handler) parses without error in the same version and yields a handler with the same output.", "quantifier": "all handlers whose commands satisfy their round trip conditions, all script lists and package selections", "why_tests_cant": "unbounded files", "anchors": ["pykickstart/base.py:BaseHandler.__str__", "pykickstart/parser.py:KickstartParser.readKickstartFromString"]}
{"id": "C40", "title": "The put-back iterator loses nothing", "statement": "For non-empty lines, a line put back is the next one returned and the rest of the sequence is unchanged.", "quantifier": "all sequences and all interleavings of next and put", "why_tests_cant": "interleavings are unbounded", "anchors": ["pykickstart/parser.py:PutBackIterator"]}
{"id": "C41", "title": "After an accepted line the command's values satisfy its rules", "statement": "After any accepted harddrive, logging, services, timezone, autopart, ostreesetup or switch-like (eula, skipx, zerombr, ...) line, whatever lines came before it, the command's attributes satisfy the documented rules of the version: harddrive has exactly one of biospart and partition (before F33), logging has a port only with a host, services enables or disables something, timezone does not combine ntpservers with nontp, autopart has no btrfs file system and not both PBKDF limits, the ostree URL has a supported scheme, the switch is on. Every repository recorded by repo lines has at most one source among mirrorlist, baseurl and (from F27) metalink, and has one before F15; a line that says otherwise is refused. From F18 on an accepted url line gives exactly one source among url, mirrorlist and (from F27) metalink, and a url that was not set before has exactly one source after it. After an accepted rootpw line there is a password or, from F18 on, the account is locked. Every time source recorded by timesource lines has exactly one of a server, a pool and --ntp-disable. An accepted driverdisk line gives exactly one of a partition, --source and (from RHEL4 on) --biospart.", "quantifier": "all versions, all histories, all argument lists", "why_tests_cant": "earlier lines leave values behind that a later line combines with; histories are unbounded", "anchors": ["pykickstart/commands/harddrive.py", "pykickstart/commands/logging.py", "pykickstart/commands/services.py", "pykickstart/commands/timezone.py", "pykickstart/commands/autopart.py", "pykickstart/commands/ostreesetup.py", "pykickstart/commands/repo.py", "pykickstart/commands/url.py", "pykickstart/commands/rootpw.py", "pykickstart/commands/timesource.py", "pykickstart/commands/driverdisk.py"]}
{"id": "C42", "title": "Lines are split into words by the POSIX quoting rules", "statement": "A kickstart line is split into the words that the quoting rules (bare characters, backslash escapes, single and double quotes, comments) give it; a text they give no meaning (open quote, trailing backslash) raises ValueError.", "quantifier": "all texts, with and without comment handling", "why_tests_cant": "texts are unbounded and quoting forms combine freely", "anchors": ["pykickstart/parser.py:KickstartParser._tokenize (shlex.split)", "pykickstart/parser.py:_stateMachine"]}
{"id": "C43", "title": "The word -- ends the options", "statement": "In a command line, the word -- and everything after it is never read as an option or as the value of an option: the options have the values the words before -- give them; a command that takes no positional arguments gets -- and the words after it back unchanged, and refuses the line if it takes options only.", "quantifier": "all option tables, all words before and after --", "why_tests_cant": "lines and option tables are unbounded", "anchors": ["pykickstart/options.py:KSOptionParser"]}
{"id": "C44", "title": "The order of lines of different commands does not matter", "statement": "What a line does to its command depends neither on where the line stands (its number, and its text apart from its words) nor on other commands, except that storage commands look whether the commands they exclude were given. So lines accepted by a handler may be written in any other order that keeps the lines of each command, and lines of commands that exclude each other, in their order: they are accepted again, every command has the same settings, and the same file is written. Exceptions: auth, authconfig and authselect keep the text of the line; reboot, bootloader, displaymode, upgrade and install depend on the name they are given by.", "quantifier": "all versions, all handlers in use, all sequences of lines and all their allowed reorderings, all options", "why_tests_cant": "there are unboundedly many files and reorderings; a test shows a few of them", "anchors": ["pykickstart/base.py:KickstartHandler.dispatcher", "pykickstart/commands/*.py:parse, __str__"]}
{"id": "C45", "title": "A handler made with its own maps uses them", "statement": "A handler made with its own command (or data) map and updates serves each name by the class the updates give, else the class the given map gives, else - if no map is given - the class of the version's map; it knows no other name.", "quantifier": "all maps and updates, all names", "why_tests_cant": "maps and updates are unbounded and combine", "anchors": ["pykickstart/base.py:KickstartHandler._registerCommands", "pykickstart/base.py:BaseHandler.__init__"]}
{"id": "C46", "title": "An option gives the attribute of its name", "statement": "The value of an option is found in the attribute named after the option (without the leading dashes, with _ for -), on the command or on the data object the line makes, except for a fixed list of options with their own attribute (such as --ondisk: disk). In an accepted line of options, the last value given for an attribute is its value afterwards.", "quantifier": "all versions, all commands, all options, all values, all lines of options", "why_tests_cant": "there are more than 2000 pairs of option and class, and values and lines are unbounded", "anchors": ["pykickstart/commands/*.py:_getParser", "pykickstart/options.py:KSOptionParser", "pykickstart/base.py:KickstartCommand.set_to_self", "pykickstart/base.py:KickstartCommand.set_to_obj"]}
{"id": "C47", "title": "Objects made with keyword arguments have the values given", "statement": "A command or data object made with keyword arguments has, in each attribute named by one of them, the value given; every other attribute has the value it has in an object made without arguments; unknown keywords make no attribute; an attribute the class lists as removed is never there, and no command line brings it back. Exceptions, all listed in the specification: what an object keeps about itself and its tables, four attributes that also have a second keyword, remote (which is osname when not given), the logging level, displaymode of F26 (which drops its arguments), and xconfig of FC6/F10 and zfcp of F12, which still take options of removed attributes.", "quantifier": "all versions, all command and data classes, all keyword arguments and values; all sequences of lines", "why_tests_cant": "there are 300 classes with up to 50 attributes each, and sets of keyword arguments and values are unbounded", "anchors": ["pykickstart/base.py:KickstartObject, KickstartCommand.__init__, BaseData.__init__, deleteRemovedAttrs", "pykickstart/commands/*.py:__init__"]}
{"id": "C48", "title": "Commands and data objects record the line they came from", "statement": "After a command line, accepted or refused, the command's object records the command as written, the text of the line and its number and is marked as seen. After any lines, the object of a command records the last line that named it, or says it was not given if there is none; the data objects of a command carry the numbers of lines that named it, in the order of the lines, at most one for each line. Outside: multipath and realm, which are not modelled.", "quantifier": "all versions, all commands, all sequences of lines with any text, words and numbers, accepted or not", "why_tests_cant": "which line an object records depends on the whole history of lines, and each of the 259 parse methods could overwrite it or forget it on one of its branches", "anchors": ["pykickstart/base.py:KickstartHandler.dispatcher", "pykickstart/commands/*.py:parse"]}
{"id": "C49", "title": "Commands that keep the text of their line read and write it faithfully", "statement": "A realm line is accepted exactly when no realm with a name was joined before and the words of its text are join, options of realm join (by an unambiguous beginning of their names, values after = or as the next word) and the name of one realm; then the command holds the name, the words and the options for finding the realm, and a refused line changes none of these. After a realm with a name was joined every further realm line is refused. What is written for realm has the words realm, join and the words given, and a handler of any version that reads it holds and writes the same. Lines of auth, authconfig and authselect are always accepted; the setting is the text after the command name without blanks around it, nothing else changes, and the written line, read again by any version with the same class, gives the same setting and the same text. Lines of deviceprobe (before RHEL8 and F29, where it is deprecated) are always accepted too: the setting is the words of the line joined by blanks, nothing else changes, and the written line, read again, gives the same setting and text if it consists of words that need no quotes. Refuted without that condition: two blanks in quotes come back as one, and a quoted quote makes the written line unreadable.", "quantifier": "all versions with the commands, all states reachable by any lines, all texts and line numbers, all words", "why_tests_cant": "the text is free: any quoting, any option abbreviation and any order of options, after any earlier lines", "anchors": ["pykickstart/commands/realm.py:F19_Realm", "pykickstart/commands/authconfig.py:FC3_Authconfig", "pykickstart/commands/authselect.py:F28_Authselect", "pykickstart/commands/deviceprobe.py:FC3_DeviceProbe"]}
{"id": "C50", "title": "A handler can be made for every version, by name or number, and for nothing else", "statement": "makeVersion of a string makes a handler of version v exactly when the string is the name of v in any case of letters (DEVEL excepted) or writes the number of v; of an integer exactly when it is the constant of a version. Anything else raises KickstartVersionError and no other exception. Outside: DEVEL and the long names that stringToVersion knows are refused (refuted).", "quantifier": "all strings and all integers", "why_tests_cant": "the strings are unbounded: blanks, signs, underscores, letters in any case", "anchors": ["pykickstart/version.py:makeVersion", "pykickstart/version.py:returnClassForVersion", "pykickstart/handlers/*.py"]}
{"id": "C51", "title": "ksvalidator says yes exactly to the files that can be read, and leaves nothing behind", "statement": "The exit value of ksvalidator is 0 exactly when the file could be copied, the version is known, the preprocessed text is not empty and reading it with fatal errors raises nothing; whether -e is given makes no difference, and for files without includes neither do directories and other files. Without -e the exit value of a file of commands is the number of refused lines. Whenever ksvalidator returns, its temporary files are gone; the only exception that escapes is one of copying the file that is no KickstartError. Refuted: the status of the process is the value modulo 256, the empty file is refused, with -i files beside the file are not found, -l lists DEVEL which -v refuses.", "quantifier": "all options, files, versions, handlers, include depths and file systems", "why_tests_cant": "the verdict must agree with the parser on every text, and with errors collected the parser takes another path through sections and includes than with fatal ones", "anchors": ["tools/ksvalidator.py:main", "tools/ksvalidator.py:cleanup", "pykickstart/parser.py:KickstartParser"]}
{"id": "C52", "title": "ksflatten writes the handler it read, or nothing", "statement": "ksflatten exits with 0 exactly when the version is known, the file and its includes are read without error, the handler has a text and the output can be opened; then it writes that text and nothing else. When it fails the output is untouched, unless the handler has no text. What ksvalidator accepts without %ksappend and %include lines ksflatten reads. Flattening a flattened file gives the same text (for the handlers of C39).", "quantifier": "all options, files, versions, handlers and file systems", "why_tests_cant": "each of the exits must leave the output alone, for every file that fails in any way", "anchors": ["tools/ksflatten.py:main"]}
{"id": "C53", "title": "ksshell executes each line as a file would and completes what was typed", "statement": "Typing command lines, blank lines and comments one after the other gives the same commands, number of errors, platform and sections as reading the file of these lines with errors that are not fatal, up to line numbers; every line is executed whatever happened before. After .clear the commands are those of a new handler that executed the lines typed since. While the first word is typed exactly the command names and internal commands with the typed beginning are offered, afterwards exactly the options of the command with the typed beginning, on an empty line every command in order. Refuted: a line with an open quote ends the shell with an exception, and its output is lost.", "quantifier": "all sequences of lines, all handlers, all positions of the cursor", "why_tests_cant": "sessions are unbounded histories of lines, some of which fail", "anchors": ["tools/ksshell.py:main", "tools/ksshell.py:KickstartCompleter", "tools/ksshell.py:ClearCommand"]}
{"id": "C54", "title": "ksverdiff lists what the two versions accept", "statement": "For any two supported versions, ksverdiff exits with 0 and prints, each in order and without repetition: as removed exactly the commands of the old version that the new one does not have or has as a removed command while the old one has not; as deprecated exactly the commands of both that are deprecated in the new one; as added exactly the commands only the new one has. A line of a removed command is refused by the new version, whatever was read before; one of a deprecated command is accepted there and changes no output; one of an added command is refused by the old version; a working command in neither of the first two lists works in the new version. A line with an option listed as removed from a command, alone or with a value, is refused by the new version, and one with an option listed as added by the old one, unless the command does not look at words it does not know. A version differs from itself in nothing. Otherwise the exit status is 1. Refuted: options of a command that had no option parser before are not listed as added; a command the old version has as removed and the new one as working is not listed as added; commands that were deprecated before are listed as deprecated again.", "quantifier": "all pairs of versions, commands, options, lines and histories of lines before", "why_tests_cant": "38 x 38 pairs of versions with about 100 commands each, and the lines and histories that must be refused or accepted are unbounded", "anchors": ["tools/ksverdiff.py:main", "tools/ksverdiff.py:getOptSet"]}
{"id": "C55", "title": "multipath: a path belongs to one device, and lines are written back", "statement": "In a handler of a version with the multipath command (FC6 to F23 and RHEL5 to RHEL7), whatever lines it read, no device node is a path of two multipath devices or twice of one. A multipath line that does not name --name, --device or --rule is refused with a parse error at its line. A multipath line for a device node that is a path already is refused with a parse error at its line and changes nothing; so does any other refused line and any line of another command. A line whose name, without what precedes its last slash, is the name of no multipath device but possibly the first begins a new one with the one path; otherwise the path is added to the last device of that name. The text is a line for every path of every device. A file whose multipath lines name different devices is written back line by line, in order. Refuted: the second path of the device named first begins another device of the same name; the second path of another device is written again at the end of the text, without a line, and after that every multipath line is refused by an exception; names with a slash are never found again.", "quantifier": "all histories of lines, names, device nodes and rules", "why_tests_cant": "the result of a line depends on all lines before it", "anchors": ["pykickstart/commands/multipath.py:FC6_MultiPath.parse", "pykickstart/commands/multipath.py:FC6_MultiPathData.__str__", "pykickstart/commands/multipath.py:FC6_MpPathData"]}
{"id": "C56", "title": "load_to_str and load_to_file return, raise and write what they say", "statement": "For a location without '://', load_to_str returns a text exactly if the file can be opened and holds the UTF-8 of that text, and raises KickstartError if it cannot be opened. For a location with '://' it returns a text exactly if the server answers with status 200 and that text, and raises KickstartError otherwise. Files do not depend on the network nor URLs on files. load_to_file changes no file but the destination; on success it returns the destination, which holds the bytes of the file or the encoded text of the answer; after a KickstartError no file has changed; it succeeds if the location can be read, the destination written and they are not the same. Where text files are UTF-8, load_to_str of the copy gives what load_to_str of the location gives. Refuted: a file that is not UTF-8 raises another exception than KickstartError; a file whose path contains '://' is never read.", "quantifier": "all locations, contents of files, answers of servers, texts and byte strings", "why_tests_cant": "unbounded contents: every sequence of bytes and code points, and every failure of the outside world", "anchors": ["pykickstart/load.py:load_to_str", "pykickstart/load.py:load_to_file"]}
{"id": "C57", "title": "Commands known under several names: the last line counts and is written back", "statement": "In a handler of a version, whatever lines it read: after an accepted reboot, shutdown, poweroff or (from F18 on) halt line, asking the handler for any of these names gives the same object. It says how the installation ends as the last line's name says (poweroff as shutdown), and the options --eject (from FC6) and --kexec (from F23) are set exactly if that last line gives them, so the options of earlier lines are forgotten. Its text is the remark and the line of the name with these options. That line, split into words and read again in any handler of the version, is accepted, says the same and is written the same. The same holds of cmdline, graphical and text with --non-interactive (from F26), and cmdline is never accepted with --non-interactive. The same holds of install (before RHEL8) and upgrade (before F20), with --root-device (from F11), for which an empty name is never accepted; its line is read again if the device needs no quotes. Refuted: a device with a blank is written without quotes and the line is refused; before F18 a halt line is accepted and changes nothing, so that after reboot and halt the text says reboot; a refused line cmdline --non-interactive takes effect all the same and the text is then a line that is refused.", "quantifier": "all versions, all histories of lines, all words of the last line", "why_tests_cant": "the object is shared by several names and the result must not depend on any history of earlier lines", "anchors": ["pykickstart/commands/reboot.py:FC3_Reboot", "pykickstart/commands/reboot.py:FC6_Reboot", "pykickstart/commands/reboot.py:F18_Reboot", "pykickstart/commands/reboot.py:F23_Reboot", "pykickstart/commands/displaymode.py:FC3_DisplayMode", "pykickstart/commands/displaymode.py:F26_DisplayMode", "pykickstart/commands/upgrade.py:FC3_Upgrade", "pykickstart/commands/upgrade.py:F11_Upgrade", "pykickstart/commands/install.py:F20_Install"]}
{"id": "C58", "title": "key: the last accepted line decides and is written back", "statement": "In a handler of a version with the key command, whatever lines it read: a key line is accepted exactly if it gives --skip or has exactly one word besides options, not beginning with a dash. After it the key is skipped in the first case and is that word in the second, whatever earlier lines said, and the text is key --skip or key with the word (nothing for an empty word). A refused line leaves the key and the text as they were. The line written, split into words and read again with any history, is accepted, says the same and is written the same, if the word needs no quotes. Refuted: a key with a blank is written without quotes and the line is refused; an empty key is accepted and lost.", "quantifier": "all versions with the command, all histories of lines, all words of the line", "why_tests_cant": "the outcome must not depend on any earlier lines, and the words of a line are unbounded", "anchors": ["pykickstart/commands/key.py:RHEL5_Key"]}
{"id": "C59", "title": "commands that are only switched on: accepted without words, and the text read again", "statement": "For lilocheck (before FC4), interactive (before F14), unsupported_hardware, skipx, mediacheck and zerombr, in every version that has them and whatever lines were read before: a line of the command is accepted exactly if it has no words after the command (zerombr before F9 accepts any words and ignores them). After an accepted line the setting is on and the command is written as its line, for interactive, skipx and zerombr after one comment line. A refused line leaves the setting and the text as they were. The written line, split into words and read again with any history, is accepted and written the same.", "quantifier": "all versions with the commands, all histories of lines, all words of the line", "why_tests_cant": "the outcome must not depend on any earlier lines, and the words of a line are unbounded", "anchors": ["pykickstart/commands/lilocheck.py:FC3_LiloCheck", "pykickstart/commands/interactive.py:FC3_Interactive", "pykickstart/commands/unsupported_hardware.py:RHEL6_UnsupportedHardware", "pykickstart/commands/skipx.py:FC3_SkipX", "pykickstart/commands/mediacheck.py:FC4_MediaCheck", "pykickstart/commands/zerombr.py:FC3_ZeroMbr, F9_ZeroMbr"]}
