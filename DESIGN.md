# Design: a Rocq model of pykickstart

The source under study is `/repo/pykickstart` (Python) at the pinned commit. It is read as text only. The model lives in
`rocq/theories` (logical name `Verif`), written for Coq 8.16.1 with the standard library only.

## Conventions

* Shallow embedding: every Python function becomes a total, computable Gallina function; exceptions are values
  (`res A := Ok a | Err e`), mutation becomes returning the new state, loops become structural recursion or recursion on fuel
  with an explicit `OutOfFuel` error that theorems exclude.
* Strings are Coq `string`s; a character is a code point 0..255 (Latin-1). Python code points above 255 are outside the model.
* External effects (loading a file or URL) are parameters of the functions (`fs : string -> option string`).
* Python's own `shlex` and `argparse` (CPython 3.11) are part of the code a kickstart line runs through, so they are modelled too.
* Error texts are not modelled; an error carries its exception class, a short tag naming the check, and the line number.

## Plan per property

| id | model | proof |
|----|-------|-------|
| C01 | `shlex.split`, `shlex.quote` | induction over characters and words |
| C02-C04 | `argparse` engine + `KSOptionParser` | fold over words, generic in the option table |
| C05-C07 | `commaSplit`, `mountpoint`/`normpath`, `ksboolean` | induction over strings |
| C08, C09 | `version.py` | finite tables by computation, lifted; induction over lines |
| C10 | `_preprocessStateMachine`, file system as parameter | induction over lines |
| C11-C17 | `_stateMachine`, `_readSection`, includes with fuel | simulation between runs, induction over lines |
| C18-C20 | `ScriptSection`, `Script.__str__` | induction over body lines, round trip |
| C21-C26 | `Packages`, `Group`, `PackageSection` | invariants / refinement to a "last mention" map; round trip |
| C27-C30 | `KickstartHandler` registry | invariants over registration sequences; permutation invariance |
| C31, C32 | handler tables generated from the source text, command classes | finite computation lifted + generic dispatcher lemma |
| C41 | self-storing commands, repo, url, rootpw, timesource, driverdisk | checked analysis of `parse`, sound for every state before the line; symbolic run of the checks of the others, induction over lines |
| C33, C34 | `set_to_obj`, `__call__` on attribute dictionaries | induction over line sequences |
| C35-C37 | storage commands, method proxy | invariants over dispatcher histories; decision rules |
| C38, C39 | per-command parse/print, whole-handler print/parse | generic lemmas on rendered words + per-command round trip |
| C40 | `PutBackIterator` | induction |
| C43 | `argparse` engine | simulation between two runs of the word loop |
| C44 | handler, all commands in all versions | analysis `PyLine` (what a method reads), induction on the reordering |
| C45 | `_registerCommands` | from C27, for maps put together from updates |
| C46 | option tables of all classes, `set_to_self`, `set_to_obj` | tables computed and compared with the written list, then from C33 and C03 |
| C47 | `__init__` of all classes, over keyword arguments | symbolic run of `__init__`, compared with the written rule; `keeps` for the removed attributes |
| C48 | dispatcher, `parse` of all classes | analysis `PyMark` of the variables that hold a data object with the line number; induction over lines |
| C49 | realm, auth, authconfig, authselect, deviceprobe | `getopt` by induction over the words against the grammar `RealmSpec.joins`; the handler line by line; symbolic run of the translated classes |
| C50 | `makeVersion`, `returnClassForVersion`, the 38 handler modules | tables checked by computation, lifted to all strings by facts about case and `int` |
| C51 | `ksvalidator` | simulation of the reading with fatal errors by the one that counts them (`ToolsFacts.strict_and_lenient`), and of readings that differ in directories (`machine_takes`) |
| C52 | `ksflatten` | case analysis; simulation of a stricter dispatcher; C39 for flattening twice (partial) |
| C53 | `ksshell`: its loop, `.clear`, completion | induction over the lines with C14; lexing a line with and without its newline |
| C54 | `ksverdiff`: its lists of commands and options | sets and sorting; C31, C17 and C03 for the lines; a table of all classes for spellings of options |
| C55 | `multipath`: the list of devices and paths after any lines, and its text | invariant over histories; the search of the list, by induction; the words of a line by C02 |
| C56 | `load_to_str`, `load_to_file`: what is returned, raised and written | files hold bytes; requests, the locale and write permission are parameters; strict UTF-8 against RFC 3629, by induction |
| C57 | `reboot`/`shutdown`/`poweroff`/`halt` `cmdline`/`graphical`/`text` and `install`/`upgrade`: what the last line leaves, and its text read again | the translated methods run on an arbitrary object; the finitely many texts by computation; histories by C27 and the dispatch lemmas |
| C58 | `key`: what is accepted, what it leaves, and its text read again | the translated methods run on an arbitrary object; the namespace of a line by the range of its table; histories by the dispatch lemmas |
| C59 | commands that are only switched on (`lilocheck`, `interactive`, `unsupported_hardware`, `skipx`, `mediacheck`, `zerombr`): what is accepted, what it leaves, and its text read again | a parser without options leaves all words over, by induction over the words; the translated methods run on an arbitrary object; histories by the dispatch lemmas |
| C42 | `shlex.split` | grammar of words, both directions by induction over characters |

## Trusted base

* Coq's kernel (8.16.1). No axioms are declared. `Print Assumptions` stands under every property theorem and prints
  "Closed under the global context" for each of them. The checker `coqchk` also lists seven axioms of `Coq.ssr` files; they
  come in with the library files that `lia` loads and no theorem here depends on them.
* The faithfulness of the model to the source text, checked by reading; each definition cites the file and lines it models.
* `tools/gen_classes.py`, which reads the class statements and handler maps from the source text (Python's `ast`) and writes
  `ClassTable.v` and `HandlerMaps.v`; `tools/gen_commands.py`, which writes `CmdTables.v` and `CmdCode.v` in the same way.
* The models of `shlex` and `argparse` are of Python 3.11. `getopt` is modelled for long options. `tools/difftest_argparse.py`, `tools/difftest_getopt.py` and `tools/difftest_text.py` compare
  them with that library (not with the code of /repo, which is never run) on random inputs.

## What is modelled

| source | model |
|--------|-------|
| stdlib `shlex.split`, `shlex.quote` | `Shlex.v` |
| stdlib `argparse` (add_argument, parse_known_args), `options.py` | `ArgParse.v`, `ArgDecl.v`, `Options.v` |
| `version.py` | `Version.v` (regular expressions as string functions) |
| `parser.py` `preprocessFromString`, `_preprocessStateMachine` | `Preprocess.v` |
| `parser.py` `KickstartParser`, `PutBackIterator`, `Script`, `Group`, `Packages` | `Parser.v`, `Packages.v` |
| `sections.py` | `Sections.v` |
| `base.py` | `Handler.v`, `ClassModel.v` |
| `commands/method.py` | `Method.v` |
| `tools/ksvalidator.py`, `tools/ksflatten.py`, `tools/ksshell.py`; the names of `handlers/*.py` | `Tools.v` |
| `tools/ksverdiff.py` | `VerDiff.v` |
| `commands/multipath.py` | `Multipath.v` |
| `load.py` | `Load.v` |
| `commands/*.py`: option tables, `__init__`, `parse`, `__str__` and the methods these call | `CmdTables.v`, `CmdCode.v` (generated), run by `MiniPy.v`, put together by `PyClass.v` |
| class statements of `base.py`, `commands/*.py`; `handlers/*.py` | `ClassTable.v`, `HandlerMaps.v` (generated) |

### The command classes

The bodies of the command classes are not translated by hand: `tools/gen_commands.py` reads them with Python's `ast` module and
writes them as terms of a small language. `MiniPy.v` gives that language (expressions, assignments, conditionals, loops,
raising, calls to `super()` and to the methods of the class) its meaning, and `PyClass.v` looks methods up along the
inheritance order of `ClassModel.v`, so a class of a version is the program the source has for it. What the translator cannot
express is reported when it runs and left out, never approximated; this concerns the classes of `realm.py`
and `multipath.py`, whose behaviour is a parameter (`rest`) of every theorem, and `method.py`, which is modelled by hand in
`Method.v` because it acts on other commands of the handler. `Realm.v` is the class of `realm.py` by hand and `Multipath.v` that of `multipath.py`; C49 and C55 take them for the parameter.

Theorems about all classes go through analyses that are themselves functions of the program, proved sound once and then
evaluated on each class by computation:

* `PyCheck.v` / `PyCheckFacts.v`: facts (comparisons, truth values) that hold of the variables where the program ends normally;
* `PyKeep.v`: attributes that a program never changes;
* `PyFlow.v` / `PyFlowFacts.v` / `CmdFlow.v`: where the values parsed from a line end up (command or fresh data object);
* `PyStrict.v` / `CmdStrict.v`: that words left over by the argument parser lead to an error.
* `PyText.v`, `PyWords.v`, `PyRound.v` (each with its `…Facts.v`): the text `__str__` returns as a tree of cases with pieces of
  text, split into words as `shlex` does, and whether the words give the option table the stored values back;
* `PySame.v` / `PySameFacts.v`: that a method does the same for two lines whose options have the same values;
* `PyLine.v` / `CmdPlace.v`: that a method does not look at the place of the line, nor at other commands but those listed (C44);
* `ArgOne.v` / `CmdWord.v`: a command that takes one word besides its options reads it as if it were the value of one more option;
* `PyInit.v`: the attributes `__init__` gives an object, as terms in the keyword arguments (C47);
* `PyMark.v`: which variables hold a data object that has the command's line number (C48);
* `CmdRound.v`: these put together (C38). `RoundSpec.v` says which values can be written;
* `RuleFacts.v`: that the facts which hold when `parse` returns imply a rule of `RuleSpec.v` (C37, C41).

Not modelled: reading files and URLs (a parameter), warnings, message texts, translations, `i18n.py`, `errors.py` beyond the
exception classes and line numbers, `ko.py`, the libraries `load.py` calls, the parsing of the options of the tools and what they print, attribute values that are neither None,
bool, int, string nor lists of those, code points above 255, `--help`/`--version` handling, and the documentation builder.

## Findings

Claims that turned out false of the code are kept as theorems with the suffix `_refuted`, with a witness.

* C19, C20, C25, C27, C29, C32: see the `_refuted` theorems of these names and the notes in MANIFEST.json.
* C27: in RHEL7 `install` and `upgrade` are different classes with one handler attribute `upgrade`
  (`C27_rhel7_refuted`).
* C32: four data classes of Fedora handlers are newer than the version (`C32_data_refuted`).

* C03: `volgroup`, `key` and a few old commands take unknown options without complaint; `volgroup vg --bogus pv.1` makes
  `--bogus` a physical volume (`C03_volgroup_refuted`, `C03_lenient_refuted`).
* C41: a refused `url --url=a --mirrorlist=b` line leaves both values in the command (`C41_url_refuted`). `driverdisk ''` is accepted and records a driver disk without a source (`C41_driverdisk_refuted`).
* C33: `url --url=x` followed by `url --mirrorlist=y` leaves both set (`C33_example`).
* C36: after `cdrom` and then `url --url=x` the method is still `cdrom` (`C36_last_line_refuted`).
* C39: `WholeSpec.v` says which scripts and packages a file can express; `PropsFile.v` reads the head, the
  commands, the scripts and the packages of the written file in turn (C19 and C25 give the last two). `CmdFile.v` turns C38
  into "the text of the command, read by a handler where the command is new, gives the same object and leaves the others
  alone"; `PropsWhole.v` goes through the written objects in order. Lines of the
  commands of C49 that keep their text are included (`built_text`). A fresh bootloader command is written as
  `bootloader --location=none` and read back as given, with the same text.
* C38: `user --uid=0` is written without the uid (`C38_refuted`); `rootpw --lock --iscrypted` is written `rootpw --lock` (`C38_lock_refuted`); the options a command does not always write are listed in
  `RoundSpec.written_when`. `part` and `logvol` from F9 never write `--bytes-per-inode`.
* C50: `makeVersion("DEVEL")` and `makeVersion("Fedora 34")` raise although `stringToVersion` knows the names (`C50_names_refuted`).
* C51: a file with 256 errors makes ksvalidator exit with status 0 (`C51_exit_status_refuted`); the empty file is refused with a
  general error (`C51_empty_refuted`); with -i included files beside the file are not found (`C51_beside_refuted`).
* C53: a line with an open quote ends ksshell with a ValueError (`C53_quotes_refuted`).
* C54: `ksverdiff` does not list options of a command that had no option parser in the old version (`autopart --encrypted`, `C54_new_options_refuted`), a command that is removed in the old and works in the new version (`C54_back_refuted`), and lists commands again that were deprecated before (`C54_already_refuted`).
* C55: `multipath` treats the index 0 of the list as none, so a second path of the first device begins another device of that name (`C55_second_refuted`). A second path of any other device is appended to the list of devices as well, is written there without a line (`C55_stray_refuted`), and makes every later `multipath` line raise AttributeError (`C55_stuck_refuted`). Names with a slash never match (`C55_slash_refuted`).
* C56: a file that is not UTF-8 makes `load_to_str` raise UnicodeDecodeError, not the KickstartError its documentation promises (`C56_not_utf8_refuted`; the parser and tools see a loader that raises only KickstartError in this model). A file whose path contains `://` is taken for a URL and never read (`C56_path_refuted`).
* C57: before F18 `halt` is accepted and ignored: after `reboot` and `halt` the text says `reboot` (`C57_halt_refuted`). `cmdline --non-interactive` is refused but has its effect: the text is then that line, which is refused when read (`C57_refused_refuted`). `upgrade --root-device="LABEL=a b"` is written without quotes and refused when read (`C57_root_refuted`).
* C58: `key "a b"` is written `key a b`, which is refused; `key ""` is accepted and not written (`C58_quotes_refuted`).
* C38: an ssh key with quotes in it (`command="x" ssh-rsa k`) is written inside further quotes and read back without them, that is, as another key (`C38_sshkey_refuted`); `mount /dev/sda '/a b'` is written without quotes and refused (`C38_mount_refuted`); `keyboard "it's"` is written as a line that cannot be split (`C38_keyboard_refuted`); `repo --cost=0`, `volgroup --reserved-space=0` and `part --size=0` are not written (`C38_zero_refuted`); `logvol --noformat` is written with `--useexisting` too (`C38_noformat_refuted`).
* C49: `realm join ''` can be followed by another join (`C49_empty_name_refuted`); a `realm` line that begins with a blank or ends with
  a remark is refused, as the text is cut off the raw line (`C49_line_refuted`). `deviceprobe` writes its words without quotes (`C49_deviceprobe_refuted`).
* C47: displaymode of F26 drops its keyword arguments (`C47_displaymode_refuted`); xconfig of FC6 stores an attribute its
  class lists as removed (`C47_removed_refuted`).
* C35: versions before F20 other than RHEL6 take automatic and manual partitioning together (`C35_other_versions_refuted`).

Sections are extended as the model grows.
