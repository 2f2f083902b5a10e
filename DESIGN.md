# Design

Subject: Cheetah3 template engine, `/repo/Cheetah` at the pinned commit, read as text.
Language of the model: Gallina (Coq 8.16.1, standard library only).

## 1. Method

* One `*_Model.v` file per modelled source module.  Model functions mirror the Python
  functions branch by branch, are total and computable, and carry a comment citing the file
  and lines they were transcribed from.
* Exceptions are values (`Raise e`); state is passed explicitly; the clock, `hash`,
  `str.isprintable`, user callables, file system contents and child processes are explicit
  parameters or inputs to the operation sequence, never axioms.
* One `*_Spec.v`-style section (or the head of the proof file) defines the specification
  independently of the model's helper functions.
* `*_Proofs.v` contain the lemmas; `*_Props.v` contain only the property theorems, each
  closed by `exact lemma.` with `Print Assumptions` under it, and next to each theorem an
  `Example` with a concrete instance that meets its hypotheses.
* Where the English property is false of the faithful model, there is a theorem
  `..._refuted` giving a concrete witness (found by evaluating the model), and a theorem
  `..._partial` proving the property under the weakest simple side condition we found.
* Strings are lists of code points (`list N`).  Python `str` values are exactly that.

## 2. Property plan

| id | modelled code | how proved |
|----|---------------|------------|
| C01 | `commitStrConst` + Python `repr` + Python literal evaluation | induction on the string; relation between repr output, the newline rewriting scan and a literal decoder |
| C02 | parse loop, `matchTopLevelToken`, `eatPlainText`, chunk emission | induction on source; composition with C01 |
| C03 | look-behind matching, `_unescape*` | induction on text |
| C04-C07, C09 | `NameMapper.py` over an abstract object graph | induction on search list / chunks |
| C08 | `_namemapper.c` chunk splitting and loop | refinement Python vs C, with divergence witnesses |
| C10-C13 | `htmlEncode`, `htmlDecode`, `Filters.py` | induction on strings |
| C14 | `MemoryCacheStore` | refinement over operation histories; `replace` refuted |
| C15-C17 | `CacheItem`, `CacheRegion`, generated region prologue/epilogue, `refreshCache` | invariant over operation lists |
| C18, C19 | `mergeNestedDictionaries` (values, then a heap model for aliasing) | induction on nested dictionaries; heap witness for refutation |
| C20 | `Template.compile` cache key | witness for collision; partial with unambiguous fields |
| C21, C22 | `Template.compile` lock section as small-step system of threads | invariant over schedules |
| C23 | `ImportManager._acquire/_release` as small-step system | witness schedule (refuted); partial invariants |
| C24 | fork/wait loop as state machine driven by child outcomes | invariant over all outcomes |
| C25 | `_getBundles`, `_checkForCollisions` | list reasoning; witness without `--flat` |
| C26 | `_compileOrFillBundle` as a sequence of file-system effects | every prefix of the effect trace |
| C27 | `mkdirsWithPyInitFiles` on a set-of-paths file system | induction on path |
| C28 | `Roman` | arithmetic on decimal digits; induction on thousands |
| C29 | `_lookup`, `useOrRaise`, `webInput` | case analysis + induction on values |
| C30 | `_handleCheetahInclude` | invariant over include sequences; witness |
| C31 | `convertVersionStringToTuple` | order reasoning |
| C32 | `convertTmplPathToModuleName` | induction on strings |
| C33, C34 | `SourceReader` | invariant over operation lists; lines/positions induction |
| C35 | `matchDirective`, `matchDirectiveName` | scan lemma |
| C36 | open-directive stack and the directives that push and pop it | Dyck-word characterisation (GenNest_Proofs) |
| C37 | `indent/dedent/addChunk` with the block directives | induction on well-nested trees |
| C38-C40 | lines emitted for capture/filter/call (Gen_Model) and their execution (GenSem_Model) | simulation: the machine running the emitted lines against a denotational meaning of the template tree |
| C41 | `getExpressionParts`, `getCallArgString`, name chunks, placeholders (Expr_Model); Python's tokenizer is a parameter | one mutual induction over the depth of calls against an inductive bracket grammar |
| C42 | `eatMultiLineComment` | scan lemma; witness for adjacency bug |
| C43 | `isLineClearToStartToken`, `_eatRestOfDirectiveTag`, `handleWSBeforeDirective` | list reasoning on line structure |
| C44 | `_initCheetahInstance` | case analysis |
| C45 | `genTimeInterval` | parsing lemma over decimal notation |
| C46 | `DummyResponse` | induction on writes |
| C47 | `Indenter` | invariant; witness for shared stack |
| C48 | `MondoReport.page`, `RecordStats` | list arithmetic; witness for short last page |
| C49 | `Hierarchy` | induction on trees |
| C50 | `_updateSettingsWithPreprocessTokens`, `_preprocessSource` | map reasoning |
| C51 | `_filterDisabledDirectives` | case analysis, witness for mixed-case names |
| C52 | `hashDict`, `hashList` with `hash` a parameter | permutation invariance of sorting |
| C53 | `_addCheetahPlumbingCodeToClass` | map reasoning |
| C54 | `nameSplit`, `packageName`, `getPathExt` | induction |
| C55 | `escapeRegexChars` with a regex-literal semantics | induction |
| C56 | `SourceFileStats` | counting |
| C57 | search list variables against dictionary methods | witness |
| C58 | report row flags | list arithmetic |
| C59 | name helpers | induction; which lines are counted as what (Stats_Props.v) |
| C60 | class names of compiled templates | case analysis, witnesses |
| C61 | list helpers of `Utils/Misc` | induction |
| C62 | `ParseError.report` | list reasoning on lines |
| C63 | `addMethComment`, `addComment`, comment eaters | invariant over runs of the parse loop |
| C64 | parse loop and eaters | length of the remaining source decreases |
| C65 | `cheetahVarStartRE`, `expressionPlaceholderStartRE`, `EOLSlurpRE` | scanners against a grammar |
| C66 | whole generated methods: `#if`, `#for`, `#while`, `#try`, blocks, placeholders, returns, `#stop` | simulation between the lines and the meaning of the tree |
| C67 | generated cache regions | same simulation, with the cache item as an oracle |
| C68 | `addSetGlobal` text | scan lemma for the split of the target |
| C69 | `getCheetahVarNameChunks`, `genNameMapperVar`, `genPlainVar` | the code text is the print of a small tree whose evaluation follows the name step by step |
| C70 | `getPlaceholder`, long forms | bracket grammar of C41; witnesses for swallowed text |
| C71 | `getPlaceholder`, short forms | longest dotted name lemma; witness for glued text |
| C72 | keyword arguments and targets | evaluation of the parser on the construct; witnesses for nested ones |
| C73 | `parse` with all `eat*` methods, driving the generator of C66 | a printed structured template is parsed back: induction on the structure, invariant on parser position, pending text and stack; the body of a short form is parsed up to a break point; #capture, #filter (by name and by class), #call and #cache are regions with what is read behind them as a condition (`reg_ok`), which C73_functions and C73_cache_arguments meet; #call may also consist of #arg parts (`sparts`, a fourth branch of the induction); not covered: `#arg x: value` on one line, text before the first #arg |
| C74 | the same parser, any source | strong induction on what is left of the source: every eater stays on the source (`adv`), reads at least one character and never runs out of fuel; two runs with different fuel agree (`ends`) |
| C75 | `getDefArgList` with `ArgList` | the loop state after each piece of a printed list (`reach`): name added, default value extended; witnesses for equals signs, colons and missing commas |
| C76 | `AutoMethodCompiler`: `cleanupState`, `_addAutoSetupCode`, `_addAutoCleanupCode`, `methodSignature` | Python parameter lists, argument binding and an evaluator for straight-line code as the specification (`Meth_Spec.v`); the lines of the frame are shown to be the text of a program whose run is computed |
| C77 | `addErrorCatcherCall`, `setErrorCatcher`, `ErrorCatchers.py` | the lines are read back by a reader of Python string literals (`take_lit`); invariant of the map from source texts to methods; run of a page refined to a specification without objects |
| C78 | `addComment`, `docString`, `classDocstring`, `moduleDocstring`, `moduleHeader`, `specialVars` | comments classified by the specification; texts read back by `take_lit`; the variables by running the assignments |
| C79 | `addImportStatement`, `addImportedVarNames`, `setBaseClass` | import statements by their parts with any white space; class paths by their parts; the statements wanted are computed from the parts, not from the text |
| C80 | `ClassCompiler`: spawning, active and finished methods, `_methodsIndex`, `setMainMethodName`, decorators, constructor, attributes | pages as trees; the class as the list of methods in post-order; names resolved as Python does, the last binding counts; `C80_no_key_error` is an invariant over all lists of calls |
| C81 | `transformToken` (c-strings) inside the expression parser | the loop over a printed string: induction on its pieces, with the text collected so far; `repr` from C01 |
| C82 | `readSettingsFromConfigFileObj`, `stringIsNumber`, `updateSettingsFrom…Str`, `setCompilerSetting(s)`, `#compiler` and `#compiler-settings` | values as a relation on the text; the loop over sections with an invariant on what every name is bound to; directives as a list of operations, ConfigParser/eval/exec parameters |
| C83 | `genParserErrorFromPythonException`, `ParseError.report` with a line number | rows as numbered lines: exact sets by induction on the rounds; the search for marks: leftmost occurrence, a mark cannot cross a newline or another mark |
| C84 | `ImportManager.importHook`, `doimport` (directors as a parameter; module code as statements that may import) | invariant on the state (sys.modules, objects, modules started) kept by every operation; induction on the depth of nested imports |
| C85 | `DirOwner.getmod`, `CheetahDirOwner.getmod`, `_compile`, `PathImportDirector.getmod` (files with times; compilers and marshal as parameters) | case analysis for the place; invariant relating times and contents of sources and caches over any operations; induction on the path |
| C86 | `ModuleCompiler.__init__` from the str to the parser, `unicodeDirectiveRE`, `encodingDirectiveRE` (a backtracking matcher for sequences of repeated classes), `IndentProcessor.process` (codecs and `eval` as parameters) | soundness of the matcher: where a match can begin; greedy runs for the line itself; `repr` and literals from C01 for #encoding; lines as a relation |
| C87 | `_eatToThisEndDirective`, `eatRaw`, `eatMacroCall`, `Macros/I18n.py` on top of the whole parser (macros and the evaluation of arguments as parameters) | induction over texts in which nothing is taken for the ending directive (`quiet`, a predicate without the search); arguments of the macro compared by name with a table |
| C88 | `wrapModuleDef`, `moduleHeader`, `moduleFooter`, `compile(returnAClass=False)` from the code on, `_compileOrFillBundle` from the output on, `eatEncoding`; codecs ascii, latin-1, utf-8 (others as a parameter) | utf-8 is a bijection (arithmetic on code points); Python's reader (PEP 263) is the specification, the declaration is found by calculation on the first two lines |
| C89 | `getCommaSeparatedSymbols`, `eatExtends`, `eatImplements`, `eatSuper`, `eatAttr`, `eatSet` with module, `eatInclude`, `eatErrorCatcher`, `eatTransform` with `addSuper`, `addAttribute`, `addInclude`, `setTransform`, on top of Front_Model | one lemma per directive, character by character; `asks` and `asks_body` say what each asks for without reading a source; the names of #extends by induction over the list, then C79 |
| C90 | `main` as far as the choice of the command, `_compileOrFill` with `os.walk` and `os.path.normpath` and the parallel branch, `_expandSourceFiles`, the check of the module name, on top of Wrapper_Model; file system as trees, options parser, child processes and the order in which they end as parameters | the walk by names (nested induction over trees), then arithmetic of paths; `below`, `meant`, `complaint` and `stands_for` say what is asked without searching; the pool by an invariant over the loops |
| C91 | `CmdLineIface._processCmdLineArgs` with the library's `getopt`, `run`; `_getTemplateClass` as far as names go; loading and the environment as parameters | `written` says how options are spelled; both directions by induction over the arguments |
| C92 | `Template.__init__`: checks, warnings, and `_initCheetahInstance` as far as filter, catcher and search list go; classes, modules and objects are numbers with what is asked about them | `documented` lists the arguments with what the messages say; case analysis, and induction over that list for the first misfit |
| C93 | the second half of `_compile`, with Python's attribute lookup, properties and bound methods | induction over the dictionary of the class gives the dictionary of the instance afterwards |
| C94 | `prev`, `next`, `PrevNextPage`, `_prevNextHelper` of MondoReport | index arithmetic with Python's negative indices; `forward`/`backward` windows; induction over successive windows for the partition |
| C95 | `loadTemplateModule`, `loadTemplateClass` with `os.path.split`/`splitext`, on top of Owner_Model (C85); running a module as a parameter | printed paths are split back (induction over the directories); case analysis for sys.modules |
| C96 | `TurboCheetah.load_template`, `load_template_module`, `_recompile_template`; compiler and Python's import as parameters | invariant on noted times and sys.modules over histories; a second invariant shows that a failure is permanent |
| C97 | `install`, `uninstall`, `setCacheDir` with the globals they change, and others who assign `builtin.__import__` or insert owner types | refinement to a switch, and an invariant on the owner types, both by induction over the calls |
| C98 | all of statprof: `start`, `stop`, `reset`, the signal handler, `display`; times as whole numbers, the sort as an insertion sort | induction over histories, against counts and times computed from the history alone; the sort raises exactly on ties |
| C99 | all of `_SkeletonPage` except the clock; values as strings | a reader of tags as a state machine over the text; induction over dicts and lists; the cut-off semicolon against a join |
| C100 | all of DirectiveAnalyzer; the parser as a parameter: the directives it eats | induction over the directives, the files and the dicts, against occurrences in the concatenated lists |
| C101 | `_GenSubberFunc`: the parser of replacement strings and the function it generates, as what its code evaluates to | strong induction on what is left of the string (nothing lost); induction over written pieces (read back); witnesses against re.sub |
| C102 | RecursiveNull on Python 3 | induction over chains of uses; case analysis |
| C103 | FileFinder on a finite directory tree; `glob` as a predicate on names | loop invariant over the waiting directories, with the number of directories as a measure, against an inductive reachability relation |
| C104 | FindAndReplace on a disk of texts; the pattern as the list of its matches, `pgrep` left out | induction over the matches (relational specification of the replaced text) and over the list of files; invariant for the counts |

### Files

| model | source |
|-------|--------|
| StrConst, PyLiteral | Compiler.py `commitStrConst`, Python `repr` and literals |
| Html | Utils/htmlEncode.py, htmlDecode.py, Filters.py |
| Cache | CacheStore.py, CacheRegion.py, Template.py cache methods, generated prologues |
| NameMapper | NameMapper.py, c/_namemapper.c, Template.getVar/varExists |
| Settings (values and heap) | SettingsManager.py |
| Report, Pages | Tools/MondoReport.py, SiteHierarchy |
| Prof | Utils/statprof.py |
| Skel | Templates/_SkeletonPage.py |
| Analyze | DirectiveAnalyzer.py |
| Finder | FileUtils.py: FileFinder |
| Subber | FileUtils.py: replacement strings; Tools/RecursiveNull.py |
| WebInput | Template.webInput and helpers |
| Names | path, module, version and class name helpers, NameMapper-free utilities |
| Small | DummyTransaction, Indenter, time intervals, other small functions |
| Compile, Conc | Template.compile cache key and history; its lock, ImportManager lock, the fork pool of cheetah test |
| Tree, Wrapper | directory creation, CheetahWrapper bundles, back-ups |
| Reader | SourceReader.py, ParseError reports |
| Lex | Parser.py: token regular expressions, plain text, comments, raw, directive starts and ends |
| Gen | Compiler.py/Parser.py: emission of lines, indentation, open-directive stack |
| GenSem | execution of the emitted lines |
| Expr, VarCode | Parser.py expression parser; Compiler.py name code |
| Front | Parser.py: the parse loop, all `eat*` methods, argument lists, with Expr and Gen as parts |
| FrontMore | (proofs only) #slurp, #raw and comments of several lines in Front_Model |
| CStr | (proofs only) c-strings of Expr_Model |
| DefArgs | (proofs only) argument lists of Front_Model |
| Meth | Compiler.py: signatures of methods and the code around their bodies |
| Catch | Compiler.py: methods for error catchers; ErrorCatchers.py; selection at run time |
| Doc | Compiler.py: comments as documentation, header and module variables |
| Import | Compiler.py: import statements, names known, #extends |
| Class | Compiler.py: methods, names, decorators and attributes of the class |
| Config | SettingsManager.py: config strings; Compiler.py/Parser.py: #compiler, #compiler-settings |
| PyErr | Template.py: report on errors in generated code |
| Hook | ImportManager.py: the import hook |
| Owner | ImportManager.py, ImportHooks.py: finding the code of a module |
| Load, Turbo | LoadTemplate.py; Tools/turbocheetah/cheetahsupport.py |
| Prep | Compiler.py, Parser.py, Utils/Indenter.py: #unicode, #encoding, #indent before parsing |
| Macro | Parser.py: #raw and macro calls; Macros/I18n.py |
| Out, Codec | Compiler.py: layout of the module; Template.py, CheetahWrapper.py: its bytes and the file |
| Head | Parser.py, Compiler.py: directives about the class and the module, #include |
| Cmd | CheetahWrapper.py: commands, source files, parallel runs |
| Iface | TemplateCmdLineIface.py; CheetahWrapper.py: --templateAPIClass |
| Made | Template.py: `__init__`, `_initCheetahInstance`, `_compile` |
| Tmpl | Template.py: search list, #include, preprocessors, plumbing |

## 3. Trusted base

* Coq's kernel (and `coqchk`), and the axioms `Print Assumptions` lists for each theorem
  (section 5).
* That the model functions transcribe the cited Python lines faithfully, and the small models
  of Python built-ins they use (`str.replace`, `repr`, slicing, dict order, `re` for the few
  fixed patterns).
* Parameters of the model, universally quantified in the theorems: Python's tokenizer and `eval`
  (Expr), evaluation of user expressions and filters (GenSem), `str.isprintable`, `hash`, the clock,
  file contents, object graphs, outcomes of child processes.
* Not modelled: Python itself (except literals and the statements that generated code consists of), the
  `re` engine in general, Webware/Django/TurboGears glue, Python 2 branches, `#defmacro`,
  macros with their own parsing methods, the gettext scanner, `Utils/memcache`.

## 4. Findings

Defects and surprises found while transcribing and proving, with the place in /repo/Cheetah.  Those marked
with a property have a `_refuted` theorem or are the reason for the side condition of a `_partial` one.

### The import hook (ImportManager.py:446-568; C84)
* `import m.k`, with `m` a module that is no package, is a KeyError instead of a ModuleNotFoundError: doimport
  returns before it makes the entry that line 501 deletes.
* `from a.x import y`, with `x` an attribute of `a` that is no module, gives `a`; in a relative import the same
  branch looks the first part up as a top-level name (line 500).
* `from .m import z` falls back to the top-level module `m`; `from ..b import y` is treated as `from .b import y`.
* A module whose code raised stays in sys.modules; the next import of it succeeds.

### Finding modules (ImportManager.py:185-266, 377-407; ImportHooks.py:54-112; C85)
* Without a cache directory a template is compiled by its first import only: the .py written beside it is found by
  every later one, whatever happens to the template.
* Source and cached code are compared by the times of the two files in whole seconds: an edit in the second in
  which the cache was written, or a replacement by an older file, is not seen.
* A module whose source was removed is still found through its cache; an unreadable cache without a source is a
  TypeError (`py[0]` of None; the branch that returns None, line 256, cannot be reached).
* A directory on sys.path that does not exist at the first import is never looked at again.
* BuiltinImportDirector, FrozenImportDirector and RegistryImportDirector are not modelled.

### Blocks taken as source text (Parser.py:1729-1766, 2425-2511, Macros/I18n.py; C87)
* The ending directive is compared by prefix: `#end rawhide` ends a #raw block, and `hide` becomes text.
* Behind `#end` without the name one character is skipped: in `#end #end raw` the second one is not seen.
* A #raw block or macro call without ending directive takes the rest of the source, without an error.
* The result of a macro is parsed as if it stood at the start of a line: if it starts with a directive alone on its
  line, the text before the call on the line of the call is taken for indentation and lost.
* `#i18n: text` on the last line of the source loses its line break (I18n.py:47-50).
* A call of a macro inside its own block is ended by the first ending directive; the second is a ParseError.
* Positional arguments of a call are dropped, and arguments named like those the parser supplies are overwritten
  (Parser.py:2462-2492).  `src` as an argument is an AssertionError.
* Positions of errors in the result of a macro are looked up in the lines of the template.

### Modules written out (Template.py:765-792, CheetahWrapper.py:624-659; C88)
* A module with characters outside ASCII and no `#encoding` (also with `#unicode`) cannot be written: UnicodeEncodeError.
* Without `--encoding` the bytes of the module are decoded as utf-8 and written in the encoding of the locale: a module
  in latin-1 is an error, and one in utf-8 becomes unreadable if the locale is not utf-8.
* `compile(returnAClass=False)` of a template that is in the cache ignores its encoding (Template.py:765-769).
* `#encoding: utf-8` sets the encoding of the module to `: utf-8` (Parser.py:1899-1902), which does not exist.
* `cheetah compile --stdout` without `--encoding` is always a TypeError on Python 3 (bytes to a text stream); the
  backup is made and directories are created all the same (CheetahWrapper.py:636-646).

### Directives about the class and the module (Parser.py:650-684, 1995-2345; C89)
- `#extends A B` has the base class `AB`: names without a comma run together (Parser.py:662-684). `#extends A,,B` has an empty base class in the list, and what follows the list (`#extends A(B)`) is text of the template.
- `#attr x += 1` is `x = 1`: the operator is read and dropped (Parser.py:2006).
- `#attr $x = $y` should be a ParseError and is an AttributeError: the exception is given the class compiler for a stream (Compiler.py:1443, Parser.py:269-272). The check is on text, so `#attr x = 'VFN('` fails as well.
- `#include rawdata` includes `data` as raw text; `#include sources` is a ParseError (Parser.py:2323-2335): the keywords are taken by their letters, not as words.
- `#set globalCount = 5`, `#set localName = 1`, `#set modules = 3`: names that start with the letters of a keyword are taken for it and lost; the results assign to the empty name or are not Python (Parser.py:2253-2263).
- `#super(1)` is a ParseError and `#super($x)` passes the plain Python name `x`: the arguments are read as those of a definition (Parser.py:2227-2233).
- `#transform X` at the end of a source is an IndexError (Parser.py:2647-2650).

### The command line (CheetahWrapper.py:119-151, 350-480, 602-625; C90)
- With `--parallel`, a child killed by a signal counts as a success: `os.WEXITSTATUS` of its status is 0 (391-394). The run succeeds without its output.
- `cheetah compile a a.tmpl` compiles the file twice; the second backup overwrites the first, so the old output file is lost (only `--flat` checks for collisions).
- `--idir ./t` puts the output of `t/a.tmpl` in `odir/t/a.py`: the paths are normalized, `idir` is not (372, 492-494).
- `--idir /` becomes the empty string and the current directory is searched (239-247).
- Templates below linked directories are not found by `-R`.
- Missing files are warnings; the run succeeds even if none is found.
- A file whose name is no identifier stops the run in the middle: earlier files are compiled, later ones are not. A name that ends in a line feed passes (24, 616).
- `cheetah t` is an AttributeError: `testOpts` is only set for the whole word (128-131, 297). `cheetah --` is told there are not enough arguments.

### Templates as programs (TemplateCmdLineIface.py:36-79; C91)
- The dictionaries of `--env`, `--pickle` and `--json` come before the one for `#set global` on the search list, so `#set global $x = 1` has no effect on `$x` if the environment has an `x`.
- Options after another argument are ignored without a word; `--help` after a file that is not there is an exception.
- `--templateAPIClass lib:Outer.Page` asks module `lib` for the attribute with the empty name: the last dot is looked for in the whole value (CheetahWrapper.py:532-548).

### Making an instance (Template.py:1232-1341, 1619-1662; C92, C93)
- A subclass of Template that is given a source (`Sub('$greeting')`) loses its methods: they are copied into the instance as plain functions and called without `self` (1646-1652). A compiled template whose class is given another source (`T('...')`) has the old `respond` that way, and cannot be filled.
- A property in such a class is an AttributeError; with a setter it is set to the property object. Attributes that are false (`count = 0`), and those inherited from another subclass, are gone.
- `searchList=obj` with one object is a TypeError (the loop for the warnings iterates over it, 1303); `namespaces=obj` is not, though the two are documented as the same.
- The warnings about keys that are members of Template are not given for `namespaces=`, nor for a single dictionary.
- `filter` and `errorCatcher` accept any class (1242, 1257), `filtersLib` accepts a string that then has no filters (1249, 1587).

### Loading by path, the TurboGears plug-in, pages (LoadTemplate.py, turbocheetah, MondoReport.py; C94, C95, C96)

- `loadTemplateModule('/index')` looks in the current directory: the clean-up of the path drops the root slash it means to keep.
- `loadTemplateModule('views/string')` replaces `sys.modules['string']`; templates of one name in two directories replace each other; a module whose code raises stays registered.
- `loadTemplateModule('views/page.v2')` takes `.v2` for the extension; a missing directory is a ValueError; an extension module is an AttributeError; an older `.py` is loaded instead of the named `.tmpl`.
- TurboCheetah notes the time of a template before it compiles it. After one failed compilation the instance never loads this template again: each edit gives a KeyError at `del sys.modules[classname]`, everything else an ImportError.
- TurboCheetah after a failed compilation serves the old class if another instance had loaded it. A subclass with another `extension` compiles the `.tmpl` file all the same.
- `RecordStats.prev()` describes the record itself under a negative index; `next()` is None for the first record and an IndexError for all others.

### Before parsing (Compiler.py:1688-1716, Utils/Indenter.py:41-86; C86)
* `#unicode` without a name takes the next line for the name if it is one word: the line is lost.  The newline before
  the directive and the empty lines around it are removed too, so the lines around it are joined.
* Both directives are looked for with regular expressions in the whole source, also in #raw, comments and text.
* `#encoding` has no effect on a str source unless the codec is unknown or does not read ASCII as it stands.
* `#indent` anywhere in the source, also in text, sends the whole source through the preprocessor: the newline at
  the end is lost, other line ends become newlines, and text inside #raw gets placeholders that are shown.
* `#indent chars=…` is an UnboundLocalError, or, after `#indent =n`, a call of `setChars`, which does not exist
  (Indenter.py:62-65, 133).
* Other white space at the start of a text line (a no-break space) is removed by `lstrip`.

### Errors in generated code (Template.py:1982-2057; C83)
* Below the caret, line n+1 is printed under the number n, and the line after the error is left out.
* An error in line 1 shows no line; a line number behind the last line is an IndexError, so Python's own
  exception appears without the template's position.
* The caret is printed one column to the left of the offset.
* A text such as `line 9, col 1` in the template is taken for the position; if the template is shorter, printing
  the error fails with an IndexError (Parser.py:291).

### Settings in a template (C82)
* `name =` in a #compiler-settings block is an IndexError (`S[0]` of an empty string, SettingsManager.py:52).
* `importSettings` calls `readSettingsFromPySrcFile`, which does not exist (SettingsManager.py:188, 192).
* `reset` merges the defaults in: settings that are not among them (macroDirectives, say) survive
  (Compiler.py:1740-1741).  It also switches useStackFrames back on, which `__init__` may have switched off.
* The option `globals` of the section globals is lost (SettingsManager.py:199-201).
* `((1+2j` counts as a number and is given to `eval`: SyntaxError (SettingsManager.py:17-18; not modelled).

### Expressions and placeholders (Parser.py)
* `${a + 1}(foo)`: a bracket directly after a long placeholder is swallowed and the code is unbalanced
  (1171-1177, 1362-1370; C70).  `${a` at the end of the source is an IndexError (1350-1355; C70).
* `$count()items`, `$a[1]th`: letters directly after arguments or a subscript are read as a further name
  (938-968; C71).
* `g(f($x=1))` and `sum($x for $x in $y)` generate invalid Python (C72).
* `$a(1)[2]` leaves `[2]` as text, `$a[2](1)` is read whole.
* `c''` is a TypeError (1279), `c'a\n'` a SyntaxError from `eval(token.upper())` (1276-1277), `c'a\tb'` keeps the backslash (C81), `c'$*5*(1)'`
  an IndexError.
* `$x =` in call arguments parses the variable twice: exponential time when nested.
* An exception leaves the useNameMapper setting changed (1229-1236).

### Generated code (Parser.py, Compiler.py)
* Short-form closures: `dedent()` without `commitStrConst` (Parser.py:2103) puts body text outside.
* Short-form `#block` inside an open `#def`: UnboundLocalError (2167-2169).  Nested closures leave
  useSearchList off (2140, 1870, 2761).  Short-form blocks put the START marker after the content.
* `addElse` rewrites `else if` inside string constants too (Compiler.py:665).
* `#arg` outside `#call`: IndexError.  Text before the first `#arg` joins the first argument.
* `#filter None` does not change currentFilter (1032); local `filterName` overwrites a user variable.
* An exception inside `#filter`, `#capture`, `#call` leaves filter, buffering flag and transaction changed
  on the instance (C38, C39).  `#stop` in `#capture` returns the collector's text (C38).
* Cache regions do not set isBuffering: output of methods called inside bypasses the cache (C67).
* Region ids are random and may collide when nested; a user-given id used twice in a nest collides.
* `<%%>` IndexError (739); stray `#else` accepted; empty bodies give a Python SyntaxError; empty `#silent`
  IndexError (C36, C37).
* Text before a `#def` on its line is lost when the first directive after `#end def` is alone on its line:
  `handleWSBeforeDirective` cuts the pending text of the enclosing method (Compiler.py:507-514; C73).
* Text before a `#raw#` on its line is lost when its `#end raw` is alone on its line: the ending directive cuts the
  pending text, which is that before the `#raw` (Parser.py:1755-1765; C73).
* `#set localizer = 3` compiles to ` = 3`: `startswith('local')`, then the whole identifier is skipped
  (Parser.py:2254-2264; C73).
* An indented single-line `  #else: b` after `  #if $x: a` compiles to a `write` of its indentation between
  the `if` and the `else`, a syntax error: short forms do not call `handleWSBeforeDirective`
  (Parser.py:1801-1810; C73).
* `#if $x then 1 + ($a if $b else $c) else $d` compiles to unbalanced brackets: every part `else` of the
  expression, also one in brackets, starts the last alternative (Parser.py:2717-2729; C73).
* `#cache(id='x')` writes `)` into the cached text: `getDefArgList` stops at the closing bracket and `eatCache` does not skip
  it, as `_eatDefOrBlock` does; `#cache (id='x')` is a parse error (Parser.py:2513-2542, 1055-1140; C73).
- The indentation of a `#arg` on a line of its own is not cut off but ends the argument before: `eatCallArg` calls `setCallArg`, which
  commits the pending text, before `handleWSBeforeDirective` looks at it (Parser.py:2582-2597, Compiler.py:886-895; C73).
* Import hooks (ImportHooks.py:38-39, 118-149; C97): `uninstall` leaves `builtin.reload` and the template extensions behind;
  it does nothing, silently, once somebody wrapped the hook in a function, and throws away a foreign bound method; `install`
  does nothing but change the extensions if `builtin.__import__` is a method or another object; `setCacheDir` has no effect
  the second time.
* Profiler (Utils/statprof.py:236-313; C98): `display` sorts tuples that end in objects without an order, so that two functions
  with the same counts, such as two callers of everything that was sampled, are a TypeError on Python 3: one sample of three
  functions is enough. After a `stop` too many the level is -1: the next `start` starts nothing, and `reset` is refused with
  "Can't reset() while statprof is running" although nothing runs.
* Skeleton page (Templates/_SkeletonPage.py; C99): `javascriptTags` writes the version (`details[0]`) where the code of the script
  (`details[1]`) belongs, so that the code given to a page never reaches it (:121-124). `imgTag` calls `self.normalizePath`, which no
  class defines, and is an AttributeError in every case (:148); behind that, the path goes to a shell without quotes (:163-164).
  Values are not escaped (:199-219). The warning for an unknown style sheet is written into the style element (:84-89).
* Directive analyzer (DirectiveAnalyzer.py:44-93; C100): the default suffix has no period, so `xtmpl` is a template; one template that
  does not compile ends the whole run without totals; with `-f` and `-d` the file is analyzed and its result thrown away.
* Replacement strings (FileUtils.py:119-216; C101): `subberFunc` relies on `exec` defining a local name and is a NameError on
  Python 3 for every replacement (and FindAndReplace needs `os.popen3`, which is gone as well). A doubled backslash, `\g<1>` and names
  of groups with digits are not read as re.sub reads them; a group that took no part in the match is a TypeError.
* RecursiveNull (Tools/RecursiveNull.py:26-39; C102): `__bool__` returns 0, which is a TypeError on Python 3: `#if $null` and
  `$null == $null` fail.
* FindAndReplace (FileUtils.py:219-303; C104): on Python 3 the constructor always fails, there is no `os.popen3`; a file listed twice is
  read again after the first time, so that what was put in is replaced and counted again.
* FileFinder (FileUtils.py:57-116; C103): directories are listed among the files, also those that are not searched; a file that matches
  two patterns is listed twice; the root is searched although it is among `ignoreDirs`; a directory with `[` in its name is itself
  taken for a pattern (the last is not modelled).
* Signatures (Compiler.py:1061-1210; C76): `#def f($trans)` gives `def f(self, trans, trans=None)`, a syntax
  error: the argument only keeps `**KWS` away. A `@staticmethod` or `@classmethod` with its own `**kw` gets
  `SL = [KWS]` and fails with NameError on every call. With the default settings every method takes `**KWS`, so a
  misspelt keyword is accepted silently. Arguments called `write`, `_filter` or `_dummyTrans` are overwritten.
* Error catchers (Compiler.py:1466-1503; C77): the code is pasted between `'''` without escaping, so after
  `#errorCatcher Echo` the placeholder `$f("\n")` evaluates a literal with a raw line end (SyntaxError while
  the page runs) and `${'a'}` gives a module that does not compile. Two placeholders with the same text share the code
  of the first. `ErrorCatchers.KeyError.warn` raises its own class, which is no exception: TypeError. The option
  `errorCatcher='ListErrors'` is registered under the name `str` (Template.py:1603), so that the directive of the
  same name starts a second list.
* Documentation comments (Compiler.py:417-430, 1578-1586, 2142-2155; C78): `##doc: 100%` comes out as `100%%` in the
  method; `"""` in the documentation of a class or module ends it; backslashes are not escaped; `##[x@y` assigns to
  `__[x__` (the pattern has `A-z`), and `##me@example.com` silently becomes the variable `__me__`.
* Imports and #extends (Compiler.py:1859-1925, 1980-1995; C79): after `#import a`, `#extends a.b.C` gives the base `b.C`
  with `b` unbound, and `a.schema.C` gives `schemC` (`replace` takes every occurrence). `#import mod` with
  `#extends mod.Base` adds `from mod.Base import Base`. `#extends Mixin, object` adds `from object import object`.
  `from m import (a, b)` records `(a` and `b)`; `import a,` is an IndexError of the compiler. With
  `useLegacyImportMode = False` no name is ever recorded.
* Methods of the class (Compiler.py:1359-1396; C80): after `#def respond`, `#implements body` renames the definition
  and not the main method. `#extends` after `#implements` takes the name away. Two blocks of one name both run
  the second. A decorator before `#closure` is accepted and lands on the next method (or the constructor). A
  `#def __init__` replaces the constructor.
* Argument lists (Parser.py:1055-1140, 359-388; C75): `#def f(x=a==b)` gets the default `ab`, the equals signs
  are dropped; `#def f(x=lambda y: y)` ends at the colon; `(a b, c=1)` is accepted and gives the default to
  `b`; `#cache id='x'` on the last line without a line break is a ParseError.
* `#cache foo` (no default value) is a TypeError from `val[0]` (Compiler.py:174-185).
* `//=` is missing from the augmented assignments (Parser.py:89-92): `#set $x //= 2` is not recognised.

### Lexing (Parser.py)
* EOLSlurp has no look-behind; `<%` cannot be escaped (C03, C65).
* `#raw` and `#compiler-settings` after text on a line lose that text (1763-1765; C43).
* Multi-line comments: an extra advance after nested tokens; an unclosed one swallows the rest (C42).
* `#raw` ... `#end` at the end of the source raises the reader's Error; directive names at the end of the
  source an IndexError; a custom directive with parser None loops forever (C64).
* disabledDirectives is case-sensitive on one side only; #compiler-settings can reset it (C51).
* doc comments with three double quotes break the module (2142-2147; C63).

### Reader and error reports (SourceReader.py, Parser.py)
* `ungetc` test inverted (161-167); break points below the position accepted; `getc`/`peek` see beyond the
  break point (C33).
* `getRowCol` TypeError on the newline of CR LF, at the end after a trailing newline, on empty sources;
  wrong line with form feeds (C34).  A ParseError at such places cannot be formatted (C62); the first source
  line is never shown as context (298-301; C62).

### Command line (CheetahWrapper.py) and file trees
* Collisions are only checked with --flat; the same source twice aborts a flat run (C25).
* `--odir //` with an absolute base loops; IndexError when base equals odir; `/out//x.tmpl` with odir `/out`
  is written to `/x.py`; `--odir /` is cleaned to the empty string.
* --nobackup: a crash loses both texts (C26).  `mkdirsWithPyInitFiles` counts a file as success (C27).

### Concurrency
* `acquire` inside `try`: a KeyboardInterrupt while waiting releases another thread's lock; compiling from
  module code deadlocks; ImportManager's stale `locker` lets two threads in (C21-C23).
* A child killed by a signal counts as success (C24).

### Caching, compile cache
* `MemoryCacheStore.replace` inverted; `add` on an expired unread key raises (C14); a colon in a custom prefix
  or varyBy values of equal `str` share entries (C15); refreshCache KeyError (C17); Memcached add/replace use
  a nonexistent attribute; non-ASCII varyBy UnicodeEncodeError.
* The compile cache key joins fields without separators; `{}` and `[]` hash alike; `_page` and `page` share a
  class (C20, C52, C60).

### Template.py
* #include memo keyed only by the argument (1668-1706; C30): mixed kinds fail or show the wrong thing, later
  web input is not seen, `#include raw` of a file object fails.
* prioritizeSearchListOverSelf with a tuple is a TypeError (1574; C44); the setting only works in the
  constructor, not when given to `Template.compile`.
* `_updateSettingsWithPreprocessTokens` changes the user's dictionary in place (990-1010; C50).
* A user's `__unicode__` is replaced when the class has no `__str__` (1098; C53).
* `_CHEETAH__errorCatchers` is keyed by `str` or `type` rather than the catcher's name (1607).

### Others
* WebSafe `also` replaces sequentially and corrupts; MaxLen with a negative length (C12, C13).
* NameMapper, C against Python: trailing dot, more than 14 chunks, empty names, duck mappings,
  defaultdict, failing properties, classes named "function" (C08); dictionary methods shadow search list
  variables (C57).
* Settings merge is not associative when the middle replaces a dictionary by an atom; `copy=True` is shallow
  (C18, C19).
* Roman below 1 TypeError (C28); last partial page IndexError (C48); `Letter` beyond 26; webInput unknown src
  TypeError (C29); unreadable version disables the check (C31); `a/b` and `a_b` share a module name (C32).
* Time interval grammar accepts `..m` (C45); Indenter stack shared by all instances (C47).

## 5. Assumptions per theorem

Every theorem named in MANIFEST.json is followed by `Print Assumptions`, which prints "Closed under the global
context" for all of them: no axiom is used, neither of the standard library nor our own.
(The seven library axioms `coqchk` lists come from files of the standard library that are loaded, not from
the theorems.)

## 6. Reading seeded/LOG.jsonl

Each line is one wrong program tried against the theorems. `theorems_failed` lists the theorems whose proof, or a lemma
it rests on, was no longer accepted after the edit. This is evidence, not a proof that each statement listed became false:
a script can also break on the new shape of a definition, and a lemma shared by several theorems puts all of them on the
list. Only for the claim named in `claim_broken` was it considered whether the edit makes it false. A failing Example
(suffix `_ex`) shows a changed value. An empty list is a survivor; `theorems_tightened` names what was added against it.
The Rocq build never depends on this file.
