{"id": "C01", "title": "Static text survives code generation", "statement": "For every piece of static template text, the Python string literal that the compiler writes into the generated module for that text evaluates, under Python's own literal rules, to exactly that text: no character is lost, added or changed, whatever mixture of quotes, backslashes, newlines, control and non-ASCII characters it contains, and the literal never ends early.", "quantifier": "all strings of Unicode code points (and every choice of which characters Python regards as printable)", "why_tests_cant": "the escaping interacts (repr quoting, backslash runs before newlines, triple quotes); a finite set of strings cannot rule out a bad run of backslashes or quotes", "anchors": ["Cheetah/Compiler.py: MethodCompiler.commitStrConst", "Cheetah/Compiler.py: escapedNewlineRE"]}
{"id": "C02", "title": "Token-free source renders verbatim", "statement": "A template source that contains none of the placeholder, directive, comment, PSP or slurp tokens renders to exactly itself.", "quantifier": "all source strings free of token characters, all lengths", "why_tests_cant": "claims an identity over an infinite set of inputs", "anchors": ["Cheetah/Parser.py: _HighLevelParser.parse, eatPlainText, matchTopLevelToken", "Cheetah/Compiler.py: addStrConst, commitStrConst"]}
{"id": "C03", "title": "Backslash escaping makes any text literal", "statement": "Taking any text without backslashes and putting a backslash before every placeholder and directive start character gives a template source whose rendering is the original text; the unescaping step never touches any other backslash.", "quantifier": "all texts", "why_tests_cant": "round-trip law over all strings, including adjacent and repeated tokens", "anchors": ["Cheetah/Parser.py: eatPlainText, _unescapeCheetahVars, _unescapeDirectives, escCharLookBehind"]}
{"id": "C04", "title": "First namespace that has the name wins", "statement": "A placeholder's first name chunk is resolved in the first namespace of the search list that has it (as mapping key or attribute); adding, removing or changing namespaces after that one never changes the result, and a failure on a later chunk is reported instead of falling back to a later namespace.", "quantifier": "all search lists of any length, all namespaces, all dotted names", "why_tests_cant": "quantifies over all namespace contents and list lengths", "anchors": ["Cheetah/NameMapper.py: valueFromSearchList, _valueForName, hasKey"]}
{"id": "C05", "title": "Dotted lookup semantics", "statement": "Every chunk of a dotted name is looked up mapping-key first and attribute second, and the value found is called with no arguments exactly when auto-calling is on and the value is a callable that is not a class (and not an ordinary instance); the result is the left-to-right fold of that rule over the chunks.", "quantifier": "all object graphs, all chunk lists, both auto-call settings", "why_tests_cant": "object graphs are unbounded and may mix mappings, attributes and callables", "anchors": ["Cheetah/NameMapper.py: _valueForName, valueForKey, hasKey"]}
{"id": "C06", "title": "NotFound exactly when nothing has the name", "statement": "A search-list lookup raises NotFound if and only if either no namespace has the first chunk or some intermediate value lacks the next chunk; it never returns a wrong value silently.", "quantifier": "all search lists and names", "why_tests_cant": "absence must be established for every namespace, not for sampled ones", "anchors": ["Cheetah/NameMapper.py: valueFromSearchList, _raiseNotFoundException"]}
{"id": "C07", "title": "Frame lookup order: locals, search list, globals, builtins", "statement": "The frame-based lookup used by generated code consults local variables, then the search list, then module globals, then builtins, and returns the same result as searching the single concatenated list [locals] + searchList + [globals, builtins].", "quantifier": "all frames, search lists and names", "why_tests_cant": "equivalence of two search procedures over all states", "anchors": ["Cheetah/NameMapper.py: valueFromFrameOrSearchList, valueFromFrame", "Cheetah/Compiler.py: genNameMapperVar"]}
{"id": "C08", "title": "C accelerator agrees with the Python name mapper", "statement": "For every name and every search list the C extension and the pure Python implementation return the same value or both raise NotFound.", "quantifier": "all dotted names (any number of chunks, empty chunks, trailing dots) and all object graphs", "why_tests_cant": "two implementations; agreement must hold for every input and the limits (chunk count) are far from typical tests", "anchors": ["Cheetah/c/_namemapper.c: getNameChunks, PyNamemapper_valueForName, namemapper_valueFromSearchList", "Cheetah/NameMapper.py: valueFromSearchList"]}
{"id": "C09", "title": "getVar, varExists and placeholders agree", "statement": "varExists(name) is true exactly when getVar(name) without a default does not raise NotFound; getVar with a default returns the default exactly when varExists is false and otherwise the same value as without a default.", "quantifier": "all templates' search lists, names (with or without $), defaults", "why_tests_cant": "must hold for all names and namespace contents", "anchors": ["Cheetah/Template.py: getVar, varExists"]}
{"id": "C10", "title": "HTML encode/decode round trip", "statement": "htmlDecode(htmlEncode(s)) == s for every string, htmlEncode output never contains a raw <, > or double quote and every & in it starts one of the four entities.", "quantifier": "all strings, including ones that already contain entities", "why_tests_cant": "sequential replacement can interfere; only a proof covers every overlap", "anchors": ["Cheetah/Utils/htmlEncode.py: htmlEncode", "Cheetah/Utils/htmlDecode.py: htmlDecode"]}
{"id": "C11", "title": "WebSafe filter output is safe and lossless", "statement": "The WebSafe filter's output contains no raw < or > and no & other than the start of an entity it generated; distinct values give distinct outputs. With the 'also' option every extra listed character is also absent from the output.", "quantifier": "all values and all 'also' strings", "why_tests_cant": "the also-characters are replaced one after another and may collide with the entities themselves", "anchors": ["Cheetah/Filters.py: WebSafe.filter"]}
{"id": "C12", "title": "MaxLen filter", "statement": "MaxLen(n) output is a prefix of the value, of length min(n, len(value)).", "quantifier": "all values and all n", "why_tests_cant": "all lengths including negative bounds", "anchors": ["Cheetah/Filters.py: MaxLen.filter"]}
{"id": "C13", "title": "Strip filters", "statement": "Strip removes exactly the leading and trailing blanks of each line, keeps the number and order of lines, and is idempotent; StripSqueeze leaves no blank lines and no double spaces, keeps the sequence of words, and is idempotent.", "quantifier": "all strings", "why_tests_cant": "line structure of arbitrary text incl. missing final newline", "anchors": ["Cheetah/Filters.py: Strip.filter, StripSqueeze.filter"]}
{"id": "C14", "title": "In-memory cache store follows its documented contract", "statement": "For every sequence of set/add/replace/delete/get/clear calls and every clock, the memory store behaves like a map with per-key expiry: set always stores; add stores only if the key is absent; replace stores only if the key is present; get returns the last stored value unless it expired; delete/clear remove.", "quantifier": "all finite operation histories and non-decreasing clocks", "why_tests_cant": "histories are unbounded", "anchors": ["Cheetah/CacheStore.py: MemoryCacheStore, AbstractCacheStore docstring"]}
{"id": "C15", "title": "A cached region is never served stale", "statement": "Rendering a cached region at time t either executes the body now, or outputs exactly what the body produced at its last execution for the same cache item; the latter never happens when that execution is more than the refresh interval old, and always happens when it is younger (for the same item id, no refresh in between).", "quantifier": "all sequences of renderings with arbitrary non-decreasing clock, intervals, varying item ids, body outputs and cache refreshes", "why_tests_cant": "temporal property over unbounded histories", "anchors": ["Cheetah/Compiler.py: startCacheRegion, endCacheRegion", "Cheetah/CacheRegion.py: CacheItem, CacheRegion", "Cheetah/CacheStore.py: MemoryCacheStore"]}
{"id": "C16", "title": "Cache items and regions do not leak into each other", "statement": "Two different cached regions, or two different varyBy values of one region, never share a cache entry, even when they share one cache store.", "quantifier": "all region ids, template prefixes and varyBy values", "why_tests_cant": "an injectivity claim over all identifiers", "anchors": ["Cheetah/CacheRegion.py: CacheRegion.getCacheItem", "Cheetah/Template.py: _getCacheStoreIdPrefix, _createCacheRegion"]}
{"id": "C17", "title": "refreshCache really refreshes and cannot fail", "statement": "After refreshCache() (whole template, one region or one item) the next rendering of every affected region executes its body again; unaffected regions keep serving their cached output; the call itself never raises.", "quantifier": "all histories before the call, including never-rendered items and entries that already expired", "why_tests_cant": "depends on the full history of the cache", "anchors": ["Cheetah/Template.py: refreshCache", "Cheetah/CacheRegion.py: CacheRegion.clear, CacheItem.clear"]}
{"id": "C18", "title": "Settings merge laws", "statement": "mergeNestedDictionaries(d1, d2) looks up as: d2's value wins for every key in d2, except that where both values are dictionaries the result is their merge; keys only in d1 are kept; merging is associative and has the empty dictionary as identity on both sides.", "quantifier": "all nested dictionaries of any depth", "why_tests_cant": "nesting depth and key overlap are unbounded", "anchors": ["Cheetah/SettingsManager.py: mergeNestedDictionaries, updateSettings"]}
{"id": "C19", "title": "Merging with copy does not modify its arguments", "statement": "updateSettings/mergeNestedDictionaries called with copying enabled never changes the dictionaries passed in, and later changes to the result never show through in them.", "quantifier": "all nested dictionaries", "why_tests_cant": "aliasing of nested values at any depth", "anchors": ["Cheetah/SettingsManager.py: mergeNestedDictionaries (copy, deepcopy flags)"]}
{"id": "C20", "title": "Compilation cache returns a class compiled with the same options", "statement": "If Template.compile returns a cached class, the class was compiled by an earlier call with the same source, file, class name, module name, main method name, compiler class, base class and settings.", "quantifier": "all histories of compile calls and all option values", "why_tests_cant": "the key is built by string concatenation; injectivity has to be argued for all values", "anchors": ["Cheetah/Template.py: compile (cacheHash)"]}
{"id": "C21", "title": "Concurrent compilations never overwrite each other's module", "statement": "In every interleaving of concurrent Template.compile calls each call registers its module under a name no other live module has, so no sys.modules entry made by another compilation is ever replaced, and each caller gets the class of its own source.", "quantifier": "all numbers of threads and all interleavings", "why_tests_cant": "schedules are unbounded and races do not reproduce", "anchors": ["Cheetah/Template.py: compile (lock section), _genUniqueModuleName"]}
{"id": "C22", "title": "The compile lock is always released", "statement": "Whatever step of a compilation raises, the global compile lock is free again afterwards, so a failed compilation never blocks later ones.", "quantifier": "all failure points and all schedules", "why_tests_cant": "every failure point must be covered", "anchors": ["Cheetah/Template.py: compile (try/finally around _CHEETAH_compileLock)"]}
{"id": "C23", "title": "Import-hook lock gives mutual exclusion and is reentrant", "statement": "With the import hooks in threaded mode at most one thread at a time is inside an import critical section, the same thread may re-enter, and the lock is released exactly when the outermost section ends.", "quantifier": "all numbers of threads, nesting depths and interleavings", "why_tests_cant": "interleavings at the granularity of single attribute reads", "anchors": ["Cheetah/ImportManager.py: ImportManager._acquire, _release"]}
{"id": "C24", "title": "Parallel compilation processes every template once and reports failure", "statement": "cheetah --parallel=N runs at most N children at a time, starts each bundle at most once, waits for every child it started, and exits with success only if every bundle was processed by a child that succeeded.", "quantifier": "all bundle lists, N, and all orders and outcomes of child termination (exit codes and signals)", "why_tests_cant": "child scheduling and outcomes are unbounded", "anchors": ["Cheetah/CheetahWrapper.py: _compileOrFill (parallel branch)"]}
{"id": "C25", "title": "Two sources are never compiled onto one output file", "statement": "In one run of cheetah compile/fill no output file is written for two different source files: such collisions abort the run before anything is written, and runs without collisions are never aborted for that reason.", "quantifier": "all source lists, directories and extensions", "why_tests_cant": "path sets are unbounded", "anchors": ["Cheetah/CheetahWrapper.py: _getBundles, _checkForCollisions, _compileOrFill"]}
{"id": "C26", "title": "An existing output file survives a failed or interrupted compile", "statement": "If compilation of a template fails, the existing output and backup files are untouched; with backups on, at every crash point the previous contents of the output file exist in full in the output file or in the backup file.", "quantifier": "all crash points, file contents and option combinations", "why_tests_cant": "every crash point and prior state must be considered", "anchors": ["Cheetah/CheetahWrapper.py: _compileOrFillBundle"]}
{"id": "C27", "title": "Package directories get an __init__.py exactly where they are created", "statement": "mkdirsWithPyInitFiles(path) makes path and all missing parents exist, puts an __init__.py in every directory it creates and in no directory that existed before, and removes or changes nothing else.", "quantifier": "all file trees and paths", "why_tests_cant": "tree shapes and path depths are unbounded", "anchors": ["Cheetah/Utils/Misc.py: mkdirsWithPyInitFiles"]}
{"id": "C28", "title": "Roman numerals are correct", "statement": "For every n >= 1 the Roman numeral produced denotes n under the usual subtractive reading, is the standard form (thousands written as Ms), and different numbers get different numerals.", "quantifier": "all positive integers", "why_tests_cant": "infinitely many n; the implementation uses global string replacement", "anchors": ["Cheetah/Tools/MondoReport.py: Roman"]}
{"id": "C29", "title": "webInput field lookup", "statement": "For every field source, _lookup returns the name without its conversion suffix; multi values come back as a list with every element converted in order; single values are the first converted element or the default when there is none; a bad element yields the converter's error value or raises it; an unknown suffix always raises TypeError.", "quantifier": "all names, field sources, converters and value lists", "why_tests_cant": "all combinations of missing, single, multiple and bad values", "anchors": ["Cheetah/Utils/WebInputMixin.py: _lookup", "Cheetah/Utils/Misc.py: useOrRaise", "Cheetah/Template.py: webInput"]}
{"id": "C30", "title": "#include shows what it names", "statement": "Each #include directive outputs the content it names: the included file's template, the raw file, the source expression compiled, or the raw source, independent of which other #include directives ran before on the same template instance.", "quantifier": "all sequences of include directives with all modes and arguments", "why_tests_cant": "memoisation makes each call depend on the whole previous history", "anchors": ["Cheetah/Template.py: _handleCheetahInclude"]}
{"id": "C31", "title": "Version strings order as releases do", "statement": "convertVersionStringToTuple maps version strings to tuples whose order is: numeric components first, then alpha < beta < candidate < final; the 'recompile' check therefore rejects exactly templates from versions older than the minimum compatible one.", "quantifier": "all version strings of the documented forms", "why_tests_cant": "order over all numbers", "anchors": ["Cheetah/Version.py: convertVersionStringToTuple", "Cheetah/Template.py: __init__ version check"]}
{"id": "C32", "title": "Template path to module name", "statement": "convertTmplPathToModuleName gives a name made only of identifier characters, with the same length as the path without extension, and different paths that use only identifier characters and one kind of separator get different names.", "quantifier": "all path strings", "why_tests_cant": "all characters and lengths", "anchors": ["Cheetah/convertTmplPathToModuleName.py: convertTmplPathToModuleName"]}
{"id": "C33", "title": "Source reader never leaves its window", "statement": "In every sequence of reader operations that succeed, the position stays between 0 and the break point, operations that would leave that window raise, and reads return exactly the source between the old and the new position.", "quantifier": "all sources and operation sequences", "why_tests_cant": "operation sequences are unbounded", "anchors": ["Cheetah/SourceReader.py: SourceReader"]}
{"id": "C34", "title": "Positions convert to line and column and back", "statement": "For every position in the source getRowCol succeeds and gives the row and column from which the position can be recovered; rows count line breaks before the position.", "quantifier": "all sources with any mix of line endings, all positions", "why_tests_cant": "all mixes of \\n, \\r and \\r\\n and the end position", "anchors": ["Cheetah/SourceReader.py: SourceReader.__init__, lineNum, getRowCol, getRowColLine"]}
{"id": "C35", "title": "Directive names are matched whole", "statement": "After the directive start token the parser recognises a directive exactly when the maximal identifier run is a registered directive name (or starts with the decorator sign), so text such as #ifx or a colour code is never taken for a directive.", "quantifier": "all source texts, positions and directive tables", "why_tests_cant": "all names that extend or abbreviate a directive name", "anchors": ["Cheetah/Parser.py: matchDirective, matchDirectiveName"]}
{"id": "C36", "title": "Only well-nested directives are accepted", "statement": "Compilation succeeds as regards nesting exactly when the sequence of opening and #end directives is well nested with matching names; otherwise a ParseError is raised.", "quantifier": "all sequences of opening and closing directives", "why_tests_cant": "unbounded nesting", "anchors": ["Cheetah/Parser.py: pushToOpenDirectivesStack, popFromOpenDirectivesStack, assertEmptyOpenDirectivesStack, eatEndDirective"]}
{"id": "C37", "title": "Generated code is correctly indented", "statement": "For every well-nested template the statements generated for the body of a block directive are indented exactly one level deeper than the statement that opens the block and code after the #end is back on the opening level; the indentation level never becomes negative.", "quantifier": "all well-nested directive sequences with else/elif/except/finally parts", "why_tests_cant": "unbounded nesting", "anchors": ["Cheetah/Compiler.py: MethodCompiler.indent, dedent, addIndentingDirective, addReIndentingDirective, addChunk"]}
{"id": "C38", "title": "#capture collects exactly its body's output", "statement": "Executing a #capture region writes nothing to the response, assigns to the variable exactly the concatenation of what its body wrote, and restores the previous output target; this composes under nesting with other regions.", "quantifier": "all bodies, nestings and prior output", "why_tests_cant": "nesting of regions is unbounded", "anchors": ["Cheetah/Compiler.py: startCaptureRegion, endCaptureRegion", "Cheetah/DummyTransaction.py: DummyResponse"]}
{"id": "C39", "title": "#filter applies to exactly its region", "statement": "Inside a #filter region placeholders go through the named filter and after the region the previously active filter is active again, for every nesting of filter regions.", "quantifier": "all nestings and bodies", "why_tests_cant": "nesting is unbounded", "anchors": ["Cheetah/Compiler.py: setFilter, closeFilterBlock"]}
{"id": "C40", "title": "#call passes exactly its body's output", "statement": "A #call region passes the text written by its body (and by each named argument part) to the function and outputs the function's result once, leaving output target and buffering state as before.", "quantifier": "all bodies, argument parts and nestings", "why_tests_cant": "nesting and argument counts are unbounded", "anchors": ["Cheetah/Compiler.py: startCallRegion, setCallArg, endCallRegion"]}
{"id": "C41", "title": "Expressions end at their matching bracket", "statement": "When the parser reads a bracketed expression it stops exactly at the bracket that closes the one it started with; mismatched or unclosed brackets raise ParseError; brackets inside string literals do not count.", "quantifier": "all source texts", "why_tests_cant": "unbounded nesting and literals", "anchors": ["Cheetah/Parser.py: getExpressionParts, getCallArgString"]}
{"id": "C42", "title": "Multi-line comments disappear completely", "statement": "A multi-line comment, including arbitrarily nested ones, contributes nothing to the output, ends at the end token matching its start token, and everything after it is processed as usual.", "quantifier": "all comment bodies and nestings", "why_tests_cant": "unbounded nesting and adjacency of tokens", "anchors": ["Cheetah/Parser.py: eatMultiLineComment"]}
{"id": "C43", "title": "Directives alone on a line leave no trace", "statement": "A directive that is alone on its line contributes neither its indentation nor its line break to the output, and no other text before or after it is changed.", "quantifier": "all surrounding texts and indentation", "why_tests_cant": "all whitespace configurations", "anchors": ["Cheetah/Parser.py: isLineClearToStartToken, _eatRestOfDirectiveTag", "Cheetah/Compiler.py: handleWSBeforeDirective"]}
{"id": "C44", "title": "Search list composition", "statement": "A template's search list is [globals set by #set global, the template, user namespaces in order], or user namespaces first when they are prioritised; a second initialisation does not change it; an #included template sees its parent's list first and itself last.", "quantifier": "all namespace lists and settings", "why_tests_cant": "all argument shapes", "anchors": ["Cheetah/Template.py: _initCheetahInstance"]}
{"id": "C45", "title": "Cache interval notation", "statement": "Interval strings such as 1.5h convert to the stated number of seconds with s/m/h/d/w units and minutes by default; no interval is silently misread.", "quantifier": "all interval strings accepted by the grammar", "why_tests_cant": "all numbers and suffixes", "anchors": ["Cheetah/Compiler.py: genTimeInterval", "Cheetah/Parser.py: cacheTokenRE"]}
{"id": "C46", "title": "Response buffer keeps writes in order", "statement": "The text returned for a template is the concatenation, in order, of all values written to its response; None contributes nothing, and reading it does not consume it.", "quantifier": "all write sequences", "why_tests_cant": "unbounded sequences", "anchors": ["Cheetah/DummyTransaction.py: DummyResponse, DummyTransaction"]}
{"id": "C47", "title": "Indenter state", "statement": "Through every sequence of indenter calls the level stays non-negative, push/pop restore the previous level, the text returned is level copies of the indent string, and one indenter never affects another.", "quantifier": "all call sequences on any number of indenters", "why_tests_cant": "unbounded sequences, shared state", "anchors": ["Cheetah/Utils/Indenter.py: Indenter"]}
{"id": "C48", "title": "Report pages", "statement": "MondoReport.page(size, start) returns the records start..start+size-1 that exist, in order, with their absolute and page-relative statistics; pages of consecutive starts partition the records.", "quantifier": "all lists, sizes and starts", "why_tests_cant": "all sizes, in particular a last partial page", "anchors": ["Cheetah/Tools/MondoReport.py: MondoReport.page, RecordStats"]}
{"id": "C49", "title": "Site hierarchy crumbs and menu", "statement": "crumbs() lists the path from the root to the current page, and menuList() shows a node's children exactly when the current page lies in that node's subtree; both terminate for every hierarchy.", "quantifier": "all hierarchies and current URLs", "why_tests_cant": "tree shapes are unbounded", "anchors": ["Cheetah/Tools/SiteHierarchy.py: Hierarchy"]}
{"id": "C50", "title": "Preprocessor tokens never override explicit settings", "statement": "Normalising a preprocessor fills in the token settings derived from its two tokens only where the user did not set them, and preprocessors are applied in list order.", "quantifier": "all settings dictionaries, tokens and preprocessor lists", "why_tests_cant": "all combinations", "anchors": ["Cheetah/Template.py: _updateSettingsWithPreprocessTokens, _preprocessSource"]}
{"id": "C51", "title": "Disabled directives cannot be used", "statement": "With a directive listed in disabledDirectives (or missing from a non-empty enabledDirectives) every template that uses it is rejected with ForbiddenDirective before any code for it is generated; other templates are unaffected.", "quantifier": "all directive names, lists and templates", "why_tests_cant": "a security property must hold for every name", "anchors": ["Cheetah/Parser.py: _filterDisabledDirectives, eatDirective"]}
{"id": "C52", "title": "Settings hashing ignores key order", "statement": "Equal settings dictionaries give equal hashes however they were built, so an equal configuration hits the compilation cache.", "quantifier": "all nested dictionaries and insertion orders", "why_tests_cant": "all permutations", "anchors": ["Cheetah/Template.py: hashDict, hashList"]}
{"id": "C53", "title": "Plumbing never overrides user methods", "statement": "Adding the Cheetah plumbing to a class defines every required method the class lacks and never replaces one the class or its bases define; doing it twice is the same as once.", "quantifier": "all classes", "why_tests_cant": "all method sets", "anchors": ["Cheetah/Template.py: _addCheetahPlumbingCodeToClass"]}
{"id": "C54", "title": "Dotted module names", "statement": "nameSplit, packageName and getPathExt decompose names consistently: joining the parts with dots gives the name back, packageName is everything before the last dot.", "quantifier": "all strings", "why_tests_cant": "all positions of dots", "anchors": ["Cheetah/ImportManager.py: nameSplit, packageName, getPathExt"]}
{"id": "C55", "title": "Regex escaping yields a literal matcher", "statement": "The pattern obtained by escaping a user-chosen token matches exactly that token and nothing else.", "quantifier": "all token strings", "why_tests_cant": "all special characters in all positions", "anchors": ["Cheetah/Parser.py: escapeRegexChars", "Cheetah/FileUtils.py: _escapeRegexChars"]}
{"id": "C56", "title": "Source statistics add up", "statement": "For every set of files the code, blank and comment line counts add up to the total line count, per file and in the summary.", "quantifier": "all file contents and file sets", "why_tests_cant": "all line shapes", "anchors": ["Cheetah/FileUtils.py: SourceFileStats"]}
{"id": "C57", "title": "Search-list variables are reachable", "statement": "A variable supplied as a key of a search-list mapping is what its placeholder yields whenever no earlier namespace contains that key.", "quantifier": "all namespaces, all names", "why_tests_cant": "depends on attribute names of every namespace type", "anchors": ["Cheetah/NameMapper.py: hasKey, valueFromFrameOrSearchList"]}
{"id": "C58", "title": "Report record flags and summaries", "statement": "For each record of a report, first/last/number and firstValue/lastValue say where the record stands in the list and in its run of equal values; the median has at least half of the numbers on either side, sums add up over parts, and the letter of a record is a letter.", "quantifier": "all lists, indices and values", "why_tests_cant": "depends on positions and neighbours in lists of any length", "anchors": ["Cheetah/Tools/MondoReport.py: RecordStats, IndexFormats, Summary"]}
{"id": "C59", "title": "Blank and comment lines are recognised", "statement": "SourceFileStats counts a line of only whitespace as blank and a line whose first non-blank character is # as a comment.", "quantifier": "all lines", "why_tests_cant": "the space of lines is infinite; test files rarely check the classification itself", "anchors": ["Cheetah/FileUtils.py: SourceFileStats.getFileStats"]}
{"id": "C60", "title": "Class name normalisation keeps identifiers valid", "statement": "The class name Template.compile derives from className or moduleName by re.sub(r'^_+([^0-9])', r'\\1', name) is a valid Python identifier whenever the given name is one: leading underscores go only if a character that may start an identifier follows. Two different given names give two different class names.", "quantifier": "for all class names", "why_tests_cant": "the set of names is infinite and the clash of names only differing in leading underscores is easily overlooked", "anchors": ["Cheetah/Template.py: compile (line 682)"]}
{"id": "C61", "title": "List and keyword helpers", "statement": "removeFromList removes from the list, for every element given, one occurrence per time it is given and as far as occurrences exist, keeps everything else in order, and never raises; checkKeywords raises TypeError exactly when some keyword of the dictionary is not among the legal ones.", "quantifier": "for all lists, elements, dictionaries and legal keyword lists", "why_tests_cant": "repeated elements and combinations of present and absent elements are unbounded", "anchors": ["Cheetah/Utils/Misc.py:removeFromList (42-50)", "Cheetah/Utils/Misc.py:checkKeywords (26-39)"]}
{"id": "C62", "title": "Parse errors can always be reported", "statement": "A ParseError raised at any position of any source can be formatted; the report names the row and column of the position (of the last character at the end of the source), shows its line and up to three lines before and after it, numbered consecutively.", "quantifier": "all sources, all positions", "why_tests_cant": "all mixes of line endings and all positions", "anchors": ["Cheetah/Parser.py: ParseError.__init__, report", "Cheetah/SourceReader.py: getRowColLine"]}
{"id": "C63", "title": "Comments never become code", "statement": "Whatever a comment in the template contains, no line of the generated Python comment contains a line break, so no part of a template comment is ever executed.", "quantifier": "all templates, all comment texts, all token settings", "why_tests_cant": "a comment with an unusual line separator that slips through is an injection that ordinary examples do not contain", "anchors": ["Cheetah/Compiler.py:532-534", "Cheetah/Compiler.py:2001-2030", "Cheetah/Parser.py:1582-1625"]}
{"id": "C64", "title": "Parsing terminates", "statement": "For every source the parse loop comes to an end, in at most one round per source character, provided no token is empty and each directive parser moves the reader forward.", "quantifier": "all sources and token settings", "why_tests_cant": "non-termination cannot be observed by a finite test run and depends on odd combinations of tokens", "anchors": ["Cheetah/Parser.py:1543-1560", "Cheetah/Parser.py:1567-1625", "Cheetah/Parser.py:1729-1766"]}
{"id": "C65", "title": "Only the documented forms start a placeholder", "statement": "A dollar sign starts a placeholder exactly when it is unescaped and followed by an optional silencer, an optional cache token, an optional opening bracket with blanks and a name (or by an optional cache token, an opening bracket and an expression); every other dollar sign, such as one in a price, is printed as it is.", "quantifier": "all sources, positions and start tokens", "why_tests_cant": "the recogniser is a regular expression with several optional parts that can backtrack; the interplay of the parts is not covered by examples", "anchors": ["Cheetah/Parser.py:449-512", "Cheetah/Parser.py:573-618"]}
{"id": "C66", "title": "Generated code does what the template means", "statement": "For every template, executing the generated method ends as the template means (normally, by #stop, #return or an exception), with the same world, appends exactly the text the template means to the active response (or returns it when the method has none), changes no other response, and leaves output target, filter and buffering as before.", "quantifier": "all templates built from text, placeholders, expressions, #set, #if/#unless/#for/#while/#repeat/#try, #capture/#call/#filter/#cache regions and blocks; all user code; all states", "why_tests_cant": "templates nest without bound, and the interplay of regions, loops and exceptions cannot be enumerated", "anchors": ["Cheetah/Compiler.py: MethodCompiler, AutoMethodCompiler._addAutoSetupCode, _addAutoCleanupCode", "Cheetah/DummyTransaction.py"]}
{"id": "C67", "title": "Cache regions", "statement": "A #cache region executes its body exactly when the region is new, its item has expired, its test holds or nothing is cached; then the text of the body is stored and written once; otherwise exactly the cached text is written and the body is not executed.", "quantifier": "all bodies, all cache states, all region settings", "why_tests_cant": "bodies nest without bound and the cache may answer its questions in any combination", "anchors": ["Cheetah/Compiler.py: startCacheRegion, endCacheRegion"]}
{"id": "C68", "title": "#set global addresses the right variable", "statement": "The target of a #set global is split at its first dot or bracket: the name before it is the key in the dictionary of global variables and the rest is applied to that entry.", "quantifier": "all targets", "why_tests_cant": "targets are unbounded chains", "anchors": ["Cheetah/Compiler.py: addSet"]}
{"id": "C69", "title": "Generated name code means the name", "statement": "The code generated for a placeholder name finds the first identifier in the first namespace that has it and then follows the name one identifier at a time: each value is called when it can be called and no argument list follows it, and argument lists and subscripts are applied exactly where they stand in the source; how the dotted name is cut into name mapper calls cannot be observed. With useNameMapper off the code is the name itself.", "quantifier": "all names, namespaces, object systems and settings useAutocalling, useSearchList, useStackFrames", "why_tests_cant": "unbounded names, arbitrary objects with side effects", "anchors": ["Cheetah/Parser.py:905-968", "Cheetah/Compiler.py:191-309"]}
{"id": "C70", "title": "Long placeholders end at their bracket", "statement": "A placeholder written with brackets, such as ${...}, ends exactly at the bracket that closes it, its code is a balanced expression, and an unclosed one raises ParseError.", "quantifier": "all source texts", "why_tests_cant": "unbounded nesting, all texts after the bracket", "anchors": ["Cheetah/Parser.py:1320-1385"]}
{"id": "C71", "title": "A placeholder ends with its name", "statement": "A short placeholder such as $user.name takes exactly the longest dotted name after the dollar sign, with the argument lists and subscripts that belong to it; a period, letter or other text after that is left as text of the template.", "quantifier": "all sources, names and following text", "why_tests_cant": "the text that may follow a placeholder is arbitrary; tests try a few characters", "anchors": ["Cheetah/Parser.py:681-702", "Cheetah/Parser.py:912-946", "Cheetah/Parser.py:1320-1399"]}
{"id": "C72", "title": "Plain names where Python needs them", "statement": "A name written with a dollar sign where Python requires a plain name - the target of a for or of a comprehension, the name of a keyword argument - is generated as the plain name, wherever the construct stands.", "quantifier": "all names, all positions of the construct in an expression", "why_tests_cant": "constructs nest arbitrarily; the tests only use them at the outermost level", "anchors": ["Cheetah/Parser.py:948-1030", "Cheetah/Parser.py:1142-1265"]}
{"id": "C73", "title": "The text of a structured template is translated to the code of its structure", "statement": "For every template built from text, placeholders, comments (of one line and of several), #slurp, #raw (block and short form), one-line directives (#silent, #echo, #set, #stop, #return, `#if c then t else f`, ...), blocks (#if/#elif/#else, #unless, #while, #repeat, #for, #try/#except/#finally), regions (#capture, #filter by name or class, #call with a body or with #arg parts, #cache) and #def/#block, nested to any depth, written with any of the three ways to end a directive or as single-line short forms (`#if $x: text`), Parser.parse drives ModuleCompiler so that compilation succeeds and the generated methods are exactly the programs of that structure; executed, the main method returns the output the structure means. Text directly before a directive loses its last line's white space exactly when the directive is alone on its line.", "quantifier": "all structured templates (unbounded text, nesting and expression length), all compiler settings without block markers, all tokenizers that read words, all worlds", "why_tests_cant": "Tests try single templates; how directives, line ends, nesting and pending text interact is unbounded, and the parser and the code generator share mutable state.", "anchors": ["Cheetah/Parser.py:1536-1700", "Cheetah/Parser.py:1786-2480", "Cheetah/Parser.py:2690-2750", "Cheetah/Compiler.py:480-1020"]}
{"id": "C74", "title": "The whole parser comes to an end on every source and reads all of it", "statement": "For every source text, whatever is wrong with it, the parser of whole templates (text, comments, placeholders, expressions, directives with short and long forms, argument lists, PSP) stops after a number of rounds and nested calls bounded by the length of the source. It gives one result, independent of any bound above that; a ParseError points to a character of the source; without an error every character of the source has been read exactly once, in order.", "quantifier": "all source texts, all settings with non-empty tokens, all tokenizers that read at least one character", "why_tests_cant": "a loop or unbounded recursion shows only on the one odd source that triggers it; no finite set of sources covers all malformed templates", "anchors": ["Cheetah/Parser.py:1537-1563", "Cheetah/Parser.py:1055-1140", "Cheetah/Parser.py:1670-1870", "Cheetah/Parser.py:2049-2169", "Cheetah/Parser.py:2511-2750"]}
{"id": "C75", "title": "Argument lists are read as they are written", "statement": "For every argument list of #def and #block (in brackets) and of #cache, #filter and the like (to the end of the line), getDefArgList returns its names with their stars, in order, each with the code of its own default value, without the white space around it, and stops exactly at the end of the list; a list that nothing follows is a ParseError at the end of the source.", "quantifier": "all lists of arguments, of any length, with any white space and default values of any length built from placeholders, tokens and bracketed expressions", "why_tests_cant": "tests try a few lists; default values are accumulated by counting commas, so a wrong pairing shows only for particular combinations", "anchors": ["Cheetah/Parser.py:1055-1140", "Cheetah/Parser.py:359-388"]}
{"id": "C76", "title": "The signature and the frame of a generated method bind what the template's arguments say", "statement": "For every #def, #block or main method with arguments of a valid Python parameter list (names not among those the generated code uses), the signature the compiler writes (self or cls, the arguments, **KWS or trans=None) is a valid parameter list. Every call that the written list accepts is accepted and binds every argument to the same value. The code in front of the body runs without an exception: trans is the transaction passed by the caller, else that of the object (when it is not buffering), else a new one; _dummyTrans, write, SL and _filter are set accordingly and the arguments keep their values. The code behind the body returns what was written to a transaction of its own and the empty string otherwise.", "quantifier": "all parameter lists of any length, all positional and keyword arguments, all settings and decorators, all transactions and object states", "why_tests_cant": "the additions depend on the combination of stars, names, settings and decorators; each test fixes one of them and one call", "anchors": ["Cheetah/Compiler.py:1061-1210"]}
{"id": "C77", "title": "Error catchers evaluate the code of their placeholder and report its text", "statement": "After #errorCatcher, each placeholder is replaced by a call of a method with a name of its own per source text. Read as Python, that method evaluates the code of the placeholder and, when a name is not found, reports this code, the source text and the position. At run time the output is the value, or the text the selected catcher promises for a placeholder that is not found; other exceptions pass; ListErrors keeps all its errors in order however often it is selected.", "quantifier": "all lists of placeholders, all codes and source texts, all sequences of directives and placeholders", "why_tests_cant": "depends on which texts coincide, on characters in the code that matter in a string literal, and on the order of directives", "anchors": ["Cheetah/Compiler.py:545-548", "Cheetah/Compiler.py:987-1003", "Cheetah/Compiler.py:1466-1503", "Cheetah/ErrorCatchers.py:1-56", "Cheetah/Template.py:1595-1607"]}
{"id": "C78", "title": "Documentation comments, headers and module variables come out as written", "statement": "Every comment of a page goes to its own place (method body, documentation of the method, the class or the module, file header, module variable), line by line and in order. Read as Python, each documentation is one string literal on its own whose lines are those of the comments; every line of the header is a comment; the assignments of module variables run and give each variable the last text written for it.", "quantifier": "all lists of comments with any texts", "why_tests_cant": "depends on quotes, backslashes, percent signs and line ends inside the texts", "anchors": ["Cheetah/Compiler.py:2001-2030", "Cheetah/Compiler.py:417-430", "Cheetah/Compiler.py:1432-1433", "Cheetah/Compiler.py:1578-1586", "Cheetah/Compiler.py:1957-1978", "Cheetah/Compiler.py:2129-2155", "Cheetah/Parser.py:159"]}
{"id": "C79", "title": "Imports and base classes come out bound", "statement": "The import directives of a template become statements of the module in their order, and the names recorded for them are the aliases, else the names and paths written. #extends with a list of class paths writes the last parts as base classes, adds for each path the statement that imports it (module path as documented, none for a name that is known), and so every base class is bound when the class statement runs; nothing is added to a method's body.", "quantifier": "all lists of import statements with any white space, aliases and paths; all lists of class paths and all sets of names known before", "why_tests_cant": "depends on white space, on the word import inside module names, on the order of the paths and on coincidences between names", "anchors": ["Cheetah/Compiler.py:1847-1857", "Cheetah/Compiler.py:1859-1925", "Cheetah/Compiler.py:1980-1995"]}
{"id": "C80", "title": "The class has one method for each definition, and the main method is the page", "statement": "For every page of text, nested definitions and blocks with decorators and arguments, error catchers, attributes, #implements and #extends, the class gets the constructor, then one method per definition, block and error catcher (inner ones first) with its own decorators, arguments and text, then the main method with the text outside of definitions under the name given last; the class attribute for the main method leads to it; with different names each method is found under its name, so a block's call runs that block; no sequence of compiler calls misses a name in the index.", "quantifier": "all pages of any nesting; all lists of calls to the class compiler", "why_tests_cant": "depends on the order of definitions and directives and on coincidences between names", "anchors": ["Cheetah/Compiler.py:1225-1530", "Cheetah/Compiler.py:1541-1571", "Cheetah/Compiler.py:1859-1863", "Cheetah/Parser.py:2014-2034", "Cheetah/Parser.py:2190-2217"]}
{"id": "C81", "title": "A c-string means its text with the values of its placeholders", "statement": "In an expression, a string written c'...' (any of the four kinds of quotes) with text and placeholder names in it is compiled to a Python expression that joins, in order, a literal for each text and str() of the code of each name; the literals evaluate to the text as written. So its value is the text with the placeholders replaced.", "quantifier": "all c-strings of any number of pieces of any length without backslashes, all positions, all settings with standard tokens, all tokenizers that read strings", "why_tests_cant": "Tests use one or two c-strings; that the loop over the string neither loses nor reorders text, at any length and with names at either end, needs induction.", "anchors": ["Cheetah/Parser.py:1267-1302", "Cheetah/Parser.py:1323-1391"]}
{"id": "C82", "title": "Compiler settings in a template take effect as documented", "statement": "A block #compiler-settings gives every option its documented value: None, True, False in any case, numbers, code after python:, else the text itself; options of the section globals become settings of their own, other sections become dictionaries. In a sequence of #compiler, #compiler-settings and reset directives the last one that gives a setting a value decides, and reset restores the defaults.", "quantifier": "all option texts, all lists of sections and options with distinct names, all sequences of directives of any length, all behaviours of eval, exec and ConfigParser", "why_tests_cant": "Tests use one block with two or three settings. Which of several sections, directives and conversions wins, for every combination and every text, needs case analysis and induction.", "anchors": ["Cheetah/SettingsManager.py:46-70", "Cheetah/SettingsManager.py:123-203", "Cheetah/SettingsManager.py:264-303", "Cheetah/Compiler.py:1926-1947", "Cheetah/Parser.py:1903-1980"]}
{"id": "C83", "title": "The report on an error in generated code shows that code and the place in the template", "statement": "When Python rejects the generated code at line p, the report shows line p with the lines around it under their own numbers, a caret under the offending character, and the place in the template that the line comes from; the report can always be printed.", "quantifier": "all generated codes, all line numbers and offsets, all tracebacks, all templates", "why_tests_cant": "Tests look at one or two errors in the middle of a file. First and last lines, marks on neighbouring lines, and texts that look like marks need all cases.", "anchors": ["Cheetah/Template.py:826-838", "Cheetah/Template.py:1982-2057", "Cheetah/Parser.py:267-329"]}
{"id": "C84", "title": "The import hook runs each module once and gives what the statement asks for", "statement": "With the import hook installed, in any sequence of imports, also nested and cyclic ones, the code of every module is started at most once, no module is removed or replaced, and every submodule is an attribute of its package. A successful import of a dotted name returns the module of its first part with all parts loaded (or the rest attributes); a successful from-import returns the module of the full name, and a package has all the names asked for, a star standing for __all__. A missing name raises ModuleNotFoundError and leaves sys.modules unchanged; a repeated import changes nothing.", "quantifier": "all finders, all module codes with imports, all sequences of imports, all consistent states", "why_tests_cant": "Import graphs, cycles, states and orders are unbounded; the bad cases need particular combinations of packages, attributes and levels.", "anchors": ["Cheetah/ImportManager.py:446-528", "Cheetah/ImportManager.py:530-568"]}
{"id": "C85", "title": "A module found by the import hooks is the right one and is up to date", "statement": "Looking for a module in a directory finds the __init__ of a package before a module, and nothing exactly if neither has a file. After any writes, removals and imports, as long as a second passes between an import and a write, the code found is that of the source as it is then. With a directory for generated code, importing a template always compiles its current text. sys.path is searched in order.", "quantifier": "all file systems, all sequences of writes, removals and imports, all compilers with sane caches", "why_tests_cant": "Staleness depends on interleavings of edits and imports and on times; tests use a fresh directory and import once.", "anchors": ["Cheetah/ImportManager.py:185-266", "Cheetah/ImportManager.py:377-407", "Cheetah/ImportHooks.py:54-112"]}
{"id": "C86", "title": "What is done to a source before parsing changes only what its directives ask for", "statement": "A source with neither #unicode, #encoding nor #indent is parsed as it stands. A line with #unicode and a name is removed with the newline before it and nothing else is. #encoding leaves the source as it is for every codec that reads ASCII as it stands; a codec that cannot decode is an error, and so are both directives together. With #indent every line becomes one line: settings become calls of the indenter, other directives stay, the indentation of text becomes a placeholder with its width; with the indenter off, blanks are shown as they were.", "quantifier": "all sources, names, codecs, positions of the directive, lines and indentations", "why_tests_cant": "Regular expressions with backtracking over white space and newlines behave differently for neighbouring inputs; tests have one directive on the first line.", "anchors": ["Cheetah/Compiler.py:1683-1718", "Cheetah/Parser.py:162-167", "Cheetah/Utils/Indenter.py:16-86"]}
{"id": "C87", "title": "Blocks taken as source text are passed on as they are written", "statement": "The text of a #raw block is shown exactly as written, whatever directives and placeholders stand in it. A macro is called with exactly the text of its block, the arguments of the call and the values the parser supplies for the names it takes, whichever the call's form; its result is parsed in place of the call and parsing goes on behind it. Without a translation #i18n is the same as its text.", "quantifier": "all texts without an ending directive of the block, places in the source, ways of ending the directives, macros and arguments", "why_tests_cant": "The search for the ending directive goes character by character with its own rules for names, backslashes and lines; tests use short blocks on their own lines.", "anchors": ["Cheetah/Parser.py:1729-1766", "Cheetah/Parser.py:2297-2314", "Cheetah/Parser.py:2425-2511", "Cheetah/Macros/I18n.py:6-54"]}
{"id": "C88", "title": "A module that is written out is read back as the module that was generated", "statement": "Compiling a template to a file gives a file that Python reads, by the encoding declared in it, as exactly the module generated from the template (with the line that declares the encoding behind the first); the encoding of the module is the one the #encoding directive gave for the source; every module can be written.", "quantifier": "all module texts, encodings, codecs that include ASCII, settings of --encoding and encodings of files", "why_tests_cant": "interplay of four encodings (of the module, the command line, the files and Python's reader) over all Unicode texts", "anchors": ["Cheetah/Template.py:765-792", "Cheetah/CheetahWrapper.py:624-659", "Cheetah/Compiler.py:1952-1956, 2061-2179", "Cheetah/Parser.py:1893-1902"]}
{"id": "C89", "title": "The directives about the class and the module hand over what is written in them", "statement": "#extends, #implements, #super, #attr, #set module, #include, #errorCatcher and #transform, wherever they stand, ask the compiler for exactly what is written (the classes listed, the name and arguments, the attribute, the assignment, the file or text and how it is taken, the catcher, the transformer) and consume their own text and no more; the classes of an #extends become the base classes in their order with their imports; malformed ones are ParseErrors.", "quantifier": "all lists of dotted names with white space, argument lists, expressions, names, positions in the source and ways to close the directive", "why_tests_cant": "unbounded lists, names and expressions in any surroundings", "anchors": ["Cheetah/Parser.py:650-684, 1995-2012, 2171-2283, 2316-2345, 2635-2670", "Cheetah/Compiler.py:596-606, 1009-1013, 1438-1464, 1859-1923, 1998-1999"]}
{"id": "C90", "title": "The command line finds the templates it is asked for and does each of them", "statement": "With -R and no files, exactly the plain files with the input extension in the input directory and the directories below it are processed, each once, to the corresponding place below the output directory; with files, those that are meant (as they are, or with the extension added) and no others, with a complaint for each of the rest, and an error for a directory without -R; compile works through them in order until one has no valid module name; with --parallel every bundle is started in its own child, at most k at a time, every child is waited for and any failure is reported; a command is its name or initial after up to two dashes.", "quantifier": "all directory trees, input and output directories, extensions, arguments, orders in which children end, argument vectors", "why_tests_cant": "unbounded trees and argument lists, and every order in which processes can end", "anchors": ["Cheetah/CheetahWrapper.py:119-151, 239-247, 350-419, 446-480, 602-625"]}
{"id": "C91", "title": "A compiled template run as a program takes the options it documents", "statement": "The options --env, --pickle and --json (or beginnings of these words, with the file as the next argument or after an equals sign) put their dictionaries before everything else on the search list, the last one first, so that a name has the value in the last one that has it and its usual value if none has it; -h and --help show the help; anything else is answered with an error and the help. --templateAPIClass module:class is that class of that module.", "quantifier": "all argument vectors, files, environments, search lists and names", "why_tests_cant": "unbounded argument vectors; every beginning and combination of options", "anchors": ["Cheetah/TemplateCmdLineIface.py:18-79", "Cheetah/CheetahWrapper.py:522-556"]}
{"id": "C92", "title": "A template takes the arguments it documents", "statement": "Template(...) answers an argument that is not what its message says it must be with a TypeError that names the first such argument, and a source together with a file with a TypeError. Otherwise the instance has the filter, the error catcher and the namespaces that are meant; the name of a filter or an error catcher that is not there is an AttributeError; namespaces and searchList are the same thing under two names, of which only one may be used; and keys of dictionaries on the search list that are members of Template are warned about, unless prioritizeSearchListOverSelf is set.", "quantifier": "all combinations of arguments, all classes, modules, namespaces and keys", "why_tests_cant": "the combinations of eight arguments of many kinds are not tried; the tests use one or two of them", "anchors": ["Cheetah/Template.py:1100-1341", "Cheetah/Template.py:1527-1617"]}
{"id": "C93", "title": "A subclass of Template that is given a source keeps its attributes", "statement": "If an instance of a subclass of Template is given a source or a file, its class is replaced by the compiled one; what could be asked of the instance before as an attribute of its class can be asked of it afterwards, with the same answer, and all other attributes are those of the compiled class.", "quantifier": "all classes, base classes, compiled classes, instances and attribute names", "why_tests_cant": "the test has one class with one attribute that is a true string", "anchors": ["Cheetah/Template.py:1619-1662"]}
{"id": "C94", "title": "Neighbouring pages", "statement": "prev() of a record is None for the first record only and otherwise tells about the records before it, next() is None for the last only and otherwise tells about the records after it; the batching window for a start or an end lies inside the list, has the asked size, takes in fewer than orphan records that would be left over, and successive windows hold every record exactly once and in order.", "quantifier": "all lists, indices, starts, ends, sizes and orphan counts", "why_tests_cant": "depends on the arithmetic of every size, start and length", "anchors": ["Cheetah/Tools/MondoReport.py: RecordStats.prev, next, _prevNextHelper, PrevNextPage"]}
{"id": "C95", "title": "Templates loaded by path", "statement": "loadTemplateModule(path) and loadTemplateClass(path) find the template the path names, with or without its extension and whatever slashes are doubled, compile and run it, register it under its name and give its class; a template that is not there is a ModuleNotFoundError; nothing else in sys.modules changes.", "quantifier": "all paths, directories, file contents and modules loaded before", "why_tests_cant": "paths of any shape, and what is loaded already", "anchors": ["Cheetah/LoadTemplate.py: loadTemplateModule, loadTemplateClass", "Cheetah/ImportHooks.py: CheetahDirOwner", "Cheetah/ImportManager.py: DirOwner"]}
{"id": "C96", "title": "Templates of the TurboGears plug-in", "statement": "TurboCheetah.load_template gives the class of the named template as it is now, after any edits and loads by any instances; a template that cannot be compiled is an error until it is mended; exactly one of the three arguments must be given.", "quantifier": "all histories of edits and loads of any number of instances", "why_tests_cant": "depends on histories of edits, failures and instances that share sys.modules", "anchors": ["Cheetah/Tools/turbocheetah/cheetahsupport.py: TurboCheetah.load_template, load_template_module, _recompile_template"]}
{"id": "C97", "title": "Installing and uninstalling the import hooks", "statement": "ImportHooks.install and uninstall are a switch: called any number of times in any order they never raise; switched on, builtin.__import__ is the hook, CheetahDirOwner stands once before the other owner types and the extensions are those of the install that switched it on; switched off, builtin.__import__ and the owner types are exactly what they were before. Whatever others assign to builtin.__import__ in between, CheetahDirOwner is among the owner types once if installed and not otherwise. The cache directory is the one that was set.", "quantifier": "all sequences of install, uninstall, setCacheDir and foreign assignments to builtin.__import__", "why_tests_cant": "tests install once and uninstall once; the property is about arbitrary interleavings of a process-wide switch with other packages that hook imports", "anchors": ["Cheetah/ImportHooks.py:30-39", "Cheetah/ImportHooks.py:115-149", "Cheetah/ImportManager.py:417-444"]}
{"id": "C98", "title": "The counts and the report of the sampling profiler", "statement": "Whatever the order of start, stop, reset and signals, the samples of the profiler are those of the signals that came between a start and its stop since the last reset; the self count of a function is the number of samples with it on top, its cumulative count the number of samples with it on the stack, each stack counted once, and the self counts add up to the number of samples. The accumulated time is the time between start and stop without the time in the signal handler. Only a reset while the profiler runs is an error. The report lists each function once, ordered by its own and then its cumulative time.", "quantifier": "all sequences of start, stop, reset and signals with their times and stacks", "why_tests_cant": "the result depends on when signals come, which a test cannot control; the counts need every interleaving of nested starts and stops, and the order of the report depends on ties", "anchors": ["Cheetah/Utils/statprof.py:145-313"]}
{"id": "C99", "title": "The HTML of the skeleton page says what the page was given", "statement": "The text written by the skeleton page's helpers reads back as what they were given: formHTMLTag and bodyTag write one tag with the given name and attributes (names in small letters), in order; formatMetaTags one tag per entry, HTTP-EQUIV before NAME; stylesheetTags one link per library, then the rules in the order of the list, with their declarations separated by semicolons; javascriptTags one script per library with its version and source and one script per piece of code with that code; imgTag and spacer one image with source, size, text and border.", "quantifier": "all names without blank, slash, equals and greater signs, all values without double quotes, all dicts, lists of identifiers and values of scripts (string, list, tuple)", "why_tests_cant": "Tests compare the output for a handful of dicts; the law is about every dict and every order, and about what is lost (the code of a script has no effect for any code).", "anchors": ["Cheetah/Templates/_SkeletonPage.py:59-138", "Cheetah/Templates/_SkeletonPage.py:140-185", "Cheetah/Templates/_SkeletonPage.py:195-219"]}
{"id": "C100", "title": "The directive analyzer counts the directives", "statement": "The analysis of a template has each directive that the parser ate once as a key, with the number of times it was eaten; the totals of a directory are such a count of the directives of all its templates together, the templates being the files under it whose name has the given ending, and do not depend on the order of the files; if a template cannot be read or compiled there are no totals.", "quantifier": "all parsers, sources, directory trees, suffixes and orders of files", "why_tests_cant": "Tests analyze one template; the law is about sums over arbitrary trees and their orders.", "anchors": ["Cheetah/DirectiveAnalyzer.py:11-31", "Cheetah/DirectiveAnalyzer.py:44-67"]}
{"id": "C101", "title": "Replacement strings of FindAndReplace are read as they are written", "statement": "Every replacement string is taken apart into texts, numbered and named groups without losing a character; a replacement written from texts without backslash, numbers not followed by digits and names of letters is read back piece by piece, and the generated function returns the texts with the groups of the match in their places; a group the pattern does not have is an IndexError; the meaning is that of re.sub.", "quantifier": "all strings; all lists of pieces; all matches", "why_tests_cant": "Tests try a few replacements; the law covers every string and every arrangement of references.", "anchors": ["Cheetah/FileUtils.py:119-216"]}
{"id": "C102", "title": "RecursiveNull is nothing, whatever is done with it", "statement": "Any chain of attributes, items and calls of a RecursiveNull gives a RecursiveNull, written as the empty string; it is false, equal to everything false and different from everything true.", "quantifier": "all chains of uses; all objects compared with it", "why_tests_cant": "Tests use chains of a few steps.", "anchors": ["Cheetah/Tools/RecursiveNull.py:11-39"]}
{"id": "C103", "title": "FileFinder finds the matching files of the tree", "statement": "The search ends and its result consists of exactly the paths of the files whose name matches one of the patterns, in the directories that can be reached from the root without passing through a directory to be left out, each of them once.", "quantifier": "all finite directory trees, patterns, and lists of names and paths to leave out", "why_tests_cant": "Tests search one small directory; the law covers trees of any depth and the order in which directories wait.", "anchors": ["Cheetah/FileUtils.py:57-116"]}
{"id": "C104", "title": "FindAndReplace replaces every match in the listed files", "statement": "Every match of the pattern in each of the listed files is replaced once by what the replacement gives for it; the results hold, for exactly the files with a match, the number of matches and their texts and places in the old contents; nothing else is changed.", "quantifier": "all patterns given by the places where they match, replacements, lists of paths and contents of files", "why_tests_cant": "Tests replace in one file or none; the law covers every list of files, also with repetitions, and every arrangement of matches.", "anchors": ["Cheetah/FileUtils.py:219-303"]}
