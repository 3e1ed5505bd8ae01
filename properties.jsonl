{"id": "C01", "title": "Cache entry serialisation round-trips", "statement": "For every CacheEntry whose Data is shorter than 4 GiB, marshalling it into a buffer of at least Size() bytes and unmarshalling those bytes yields an entry with exactly the same Bitset, ClientType, every Entry64 field, DeviceType, Hkey, Timestamp (including negative ones) and Data, whatever the receiver held before.", "quantifier": "every CacheEntry value, every destination buffer, every prior content of the receiver", "why_tests_cant": "Twelve integer fields of 8..64 bits and unbounded Data; tests round-trip four literals.", "anchors": ["cache_entry.go:MarshalTo", "cache_entry.go:Unmarshal"]}
{"id": "C02", "title": "MarshalTo writes exactly Size() bytes and nothing else", "statement": "MarshalTo(buf) fails with io.ErrShortBuffer, returns 0 and leaves buf untouched iff len(buf) < Size(); otherwise it returns Size(), the first Size() bytes are determined by the entry alone, and all bytes of buf from Size() on are unchanged. Every number stands at its fixed offset, little-endian, and the data follow from offset 95.", "quantifier": "every CacheEntry, every buffer (any length and content)", "why_tests_cant": "Unbounded buffers; absence of stray writes must hold at every offset.", "anchors": ["cache_entry.go:MarshalTo", "cache_entry.go:Size", "cache_entry.go:minsz"]}
{"id": "C03", "title": "Unmarshal is total and never reads past its input", "statement": "On any byte string, Unmarshal returns either nil or io.ErrUnexpectedEOF and never panics; it returns nil iff the input holds the fixed header plus the number of data bytes announced by the header's length field; on success the result depends only on that prefix and re-marshalling the result reproduces exactly that prefix.", "quantifier": "every byte string", "why_tests_cant": "Adversarial/truncated inputs are infinitely many; a test can only try a few truncations.", "anchors": ["cache_entry.go:Unmarshal"]}
{"id": "C04", "title": "Truncated cache entries are always rejected", "statement": "Every strict prefix of a marshalled entry is rejected by Unmarshal with io.ErrUnexpectedEOF, and the receiver's Data is left unchanged.", "quantifier": "every CacheEntry and every truncation point", "why_tests_cant": "The truncation point ranges over every offset of every possible entry (crash/partial-read points of a remote cache).", "anchors": ["cache_entry.go:Unmarshal"]}
{"id": "C05", "title": "Version.Parse computes the dotted components", "statement": "For a fresh Version and any string, Parse splits the string at the first four dots, returns an error at the first component that is not a valid decimal integer (leaving the components before it set, the rest and the parsed mark untouched), and otherwise sets Major..Revision to the components (missing ones 0) and Suffix to the text after the first space or hyphen of the remainder after the fourth dot.", "quantifier": "every string", "why_tests_cant": "Unbounded strings with arbitrary dots, signs, junk and lengths.", "anchors": ["version.go:Parse"]}
{"id": "C06", "title": "Parsing is idempotent until Reset", "statement": "After a successful Parse, any later Parse of any string changes nothing and returns nil until Reset is called; after Reset the Version is equal to the zero Version and parses again like a fresh one; re-parsing the same string after a failed Parse fails again and leaves the same fields.", "quantifier": "every sequence of Parse/Reset calls", "why_tests_cant": "Ranges over call histories.", "anchors": ["version.go:Parse", "version.go:Reset", "ctx.go:GetBrowserVersion"]}
{"id": "C07", "title": "Version text round-trips through Parse", "statement": "Formatting a Version with String and parsing the text gives the same Version back.", "quantifier": "every Version value with non-negative components", "why_tests_cant": "Four 31-bit components and a free-form suffix; the tests never parse formatted output.", "anchors": ["version.go:Write", "version.go:String", "version.go:Parse"]}
{"id": "C08", "title": "Version components are the numbers in the text", "statement": "When Parse succeeds, each component equals the decimal number written in the text.", "quantifier": "every dotted decimal string", "why_tests_cant": "Needs all magnitudes: int32 conversion wraps silently above 2^31-1.", "anchors": ["version.go:Parse"]}
{"id": "C09", "title": "Version.Write only appends", "statement": "Write(dst) returns dst followed by the version text; the text appended does not depend on dst.", "quantifier": "every Version and every destination slice", "why_tests_cant": "All destination contents and all component values.", "anchors": ["version.go:Write"]}
{"id": "C10", "title": "Tokenizer yields exactly the maximal delimiter-free runs", "statement": "Repeated Next over one user agent returns, in order, exactly the maximal non-empty runs of non-delimiter bytes (delimiters: space, tab, LF, CR and /();,.[]{}:=+*), then EOF.", "quantifier": "every byte string", "why_tests_cant": "Unbounded inputs and positions of delimiters; tests enumerate a few dozen strings.", "anchors": ["tokenizer.go:Next", "tokenizer.go:isDelimiter", "tokenizer.go:tableDelim"]}
{"id": "C11", "title": "Tokenizer never panics", "statement": "Next returns (a token or EOF) for every input, i.e. it never indexes outside its delimiter table.", "quantifier": "every byte string, including bytes that are not valid text", "why_tests_cant": "Any of the 256 byte values may occur at any position.", "anchors": ["tokenizer.go:isDelimiter", "tokenizer.go:tableDelim"]}
{"id": "C12", "title": "Tokenizer terminates, EOF is sticky and Reset restarts", "statement": "At most len(ua) calls return a token; once EOF is reported every further call on the same input reports EOF; after Reset the same token sequence is produced again; NextString agrees with Next.", "quantifier": "every byte string and every number of calls", "why_tests_cant": "Ranges over call sequences of unbounded length.", "anchors": ["tokenizer.go:Next", "tokenizer.go:NextString", "tokenizer.go:Reset"]}
{"id": "C13", "title": "Built-in cache returns the last value set", "statement": "After Set(k, e), Get(k) returns e, until another Set for k or until e has been idle for longer than the TTL and a cleaning pass ran; operations on other keys (with different hashes) do not affect it. A key never set is reported as not found.", "quantifier": "every history of Set, Get and cleaning passes, every clock reading", "why_tests_cant": "Histories are unbounded and the swap-with-last deletion permutes rows.", "anchors": ["cache.go:Set", "cache.go:Get", "cache.go:clean"]}
{"id": "C14", "title": "Cleaning evicts only idle entries and nothing else", "statement": "A cleaning pass removes an entry only if more than one hour has elapsed since its last Set or Get; every other entry stays retrievable with the same value.", "quantifier": "every reachable cache state and every clock reading", "why_tests_cant": "The deletion loop swaps rows while iterating; every permutation of expired/live rows matters.", "anchors": ["cache.go:clean"]}
{"id": "C15", "title": "Cleaning makes progress on idle entries", "statement": "A single cleaning pass removes every entry idle for more than the TTL.", "quantifier": "every reachable cache state", "why_tests_cant": "Depends on the arrangement of expired rows in the buffer.", "anchors": ["cache.go:clean"]}
{"id": "C16", "title": "Built-in cache never panics and holds one row per key", "statement": "In every history in which each Set stores a fresh entry, no cache operation panics, the index and the row buffer stay in bijection, and the number of rows equals the number of distinct keys present.", "quantifier": "every history of Set, Get and cleaning passes", "why_tests_cant": "Invariant over unbounded histories.", "anchors": ["cache.go:Set", "cache.go:Get", "cache.go:clean"]}
{"id": "C17", "title": "Cache entries may be shared between keys", "statement": "Storing the same *CacheEntry under two keys is as safe as storing two copies.", "quantifier": "every history that re-uses entry pointers", "why_tests_cant": "The failure needs an aliasing Set followed by two cleaning passes and a Set.", "anchors": ["cache.go:Set", "cache.go:clean"]}
{"id": "C18", "title": "Distinct user agents never see each other's cached results", "statement": "A context never reports the cached analysis of a different user agent.", "quantifier": "every pair of user agents", "why_tests_cant": "Requires a property of a 64-bit hash on unbounded strings.", "anchors": ["cache.go:Get", "client_parser.go:parseClient", "os.go:parseOS", "device_parser.go:parseDevice"]}
{"id": "C19", "title": "Getters are repeatable", "statement": "Calling the same getter again on a context (with any other getters in between, and no setter) returns the same value, and once a group (client/device/OS) has been detected its getters perform no further cache access or detection.", "quantifier": "every user agent, every sequence of getter calls, every table content", "why_tests_cant": "All interleavings of getters on all inputs.", "anchors": ["ctx.go", "client_parser.go:parseClient", "device_parser.go:parseDevice", "os.go:parseOS"]}
{"id": "C20", "title": "Results do not depend on the order of getter calls", "statement": "On a context for a given user agent, mask and header, the value returned by each getter is a function of those inputs alone, independent of which other getters were called before (with a cache that holds nothing for this user agent initially).", "quantifier": "every user agent and every sequence of getter calls", "why_tests_cant": "Orders of 13 getters on all inputs; device detection triggers OS detection internally.", "anchors": ["ctx.go", "device_parser.go:evalDevice"]}
{"id": "C21", "title": "Caching is transparent", "statement": "The value of every getter is the same whether the analysis was computed or taken from the cache, for any history of contexts using the same masks.", "quantifier": "every history of contexts over any user agents sharing one cache", "why_tests_cant": "History property over shared state.", "anchors": ["cache_entry.go:FromCtx", "ctx.go:fromCache", "ctx.go:GetModel"]}
{"id": "C22", "title": "Concurrent contexts are isolated", "statement": "For every interleaving of goroutines, each with its own context, sharing the cache, and for every eviction schedule, every getter (other than GetModel) returns the value it would return alone.", "quantifier": "every number of goroutines, every schedule, every eviction", "why_tests_cant": "Schedules are unbounded.", "anchors": ["cache.go", "client_parser.go:parseClient", "device_parser.go:parseDevice", "os.go:parseOS"]}
{"id": "C23", "title": "Client type filter is honoured", "statement": "GetClientType returns either 0 or one of the types in the mask given to FilterClientType.", "quantifier": "every mask, user agent and cache content", "why_tests_cant": "Masks x user agents x cache histories.", "anchors": ["ctx.go:FilterClientType", "client_parser.go:parseClient"]}
{"id": "C24", "title": "Client detection priority", "statement": "With a cold cache the reported client is the first matching entry of the first enabled class in the order feed reader, mobile app, media player, PIM, library, browser; if none matches the type is 0 and the name is UNK.", "quantifier": "every user agent, mask and table content", "why_tests_cant": "All overlaps between thousands of patterns.", "anchors": ["client_parser.go:parseClient", "client_parser.go:evalClient"]}
{"id": "C25", "title": "Device type filter is honoured", "statement": "GetDeviceType returns either 0 or one of the types in the mask given to FilterDeviceType.", "quantifier": "every mask, user agent and cache content", "why_tests_cant": "Masks x user agents; type strings in the table override the class.", "anchors": ["ctx.go:FilterDeviceType", "device_parser.go:parseDevice", "device_parser.go:deviceEvalType"]}
{"id": "C26", "title": "Device detection priority and fallbacks", "statement": "With a cold cache the device is the first matching entry of the first enabled class in the order camera, car browser, console, portable media player, shell TV, TV, mobile, notebook; if none matches and notebooks are enabled, a desktop operating system forces 'desktop'; otherwise the words Tablet and Mobile decide, in that order; the brand then comes from the vendor fragments.", "quantifier": "every user agent, mask and table content", "why_tests_cant": "All overlaps between patterns and the deferred OS lookup.", "anchors": ["device_parser.go:parseDevice", "device_parser.go:evalDevice", "device_parser.go:evalVendor", "ctx.go:GetDeviceType"]}
{"id": "C27", "title": "OS detection takes the first applicable entry", "statement": "With a cold cache GetOS/GetOSVersionString report the first OS entry that matches, skipping the iOS patterns for Mac-looking agents and the Android patterns for 'like Android' agents; name and version come from the entry's constants or capture groups, with the sub-version list overriding.", "quantifier": "every user agent and table content", "why_tests_cant": "330 ordered entries and skip rules on all inputs.", "anchors": ["os.go:parseOS", "os.go:osEvalVer", "ctx.go:GetOS", "ctx.go:GetOSVersionString"]}
{"id": "C28", "title": "Pooled contexts are clean", "statement": "A context obtained from the pool after Release behaves exactly like a new context: nothing of the previous user agent, header, masks or results is observable through any getter.", "quantifier": "every prior use of the context", "why_tests_cant": "Ranges over all previous states of the context.", "anchors": ["pool.go:Get", "pool.go:Put", "ctx.go:Reset", "ctx.go:reset"]}
{"id": "C29", "title": "SetUserAgent starts a new analysis and keeps the filters", "statement": "After SetUserAgent(ua) on any context, every getter behaves as on a new context with the same masks and that user agent; GetUserAgent returns ua.", "quantifier": "every prior state of the context and every user agent", "why_tests_cant": "All previous states.", "anchors": ["ctx.go:SetUserAgent", "ctx.go:SetUserAgentStr", "ctx.go:GetUserAgent", "alias.go"]}
{"id": "C30", "title": "Setter order does not matter", "statement": "SetUserAgent and SetRequestedWith may be called in either order.", "quantifier": "every user agent and header", "why_tests_cant": "Needs all call orders.", "anchors": ["ctx.go:SetRequestedWith", "ctx.go:SetUserAgent"]}
{"id": "C31", "title": "Requested-with header only refines the browser name", "statement": "With a header known to the hint table GetBrowser returns that table's name; with an unknown or empty header it returns the detected name.", "quantifier": "every header and user agent", "why_tests_cant": "All header strings.", "anchors": ["ctx.go:SetRequestedWith", "ctx.go:GetBrowser"]}
{"id": "C32", "title": "Browser version string format", "statement": "GetBrowserVersionString returns the version fragment captured from the user agent (or the entry's constant) with everything up to the first slash and all trailing dots removed; it never ends in a dot.", "quantifier": "every user agent and table content", "why_tests_cant": "All captured fragments.", "anchors": ["ctx.go:GetBrowserVersionString"]}
{"id": "C33", "title": "OS version string has no underscores", "statement": "GetOSVersionString returns the captured or constant version with every underscore replaced by a dot and nothing else changed.", "quantifier": "every user agent and table content", "why_tests_cant": "All captured fragments.", "anchors": ["ctx.go:GetOSVersionString"]}
{"id": "C34", "title": "Model templates are expanded faithfully", "statement": "The model name is the entry's template with every $1,$2,$3 replaced by the corresponding captured text, stopping at the first group that did not participate; names are trimmed of surrounding spaces.", "quantifier": "every template, every capture vector, every user agent", "why_tests_cant": "Templates with several placeholders x captures.", "anchors": ["device_parser.go:deviceBufMNE1", "device_parser.go:deviceBufMNE", "conv.go:b2i", "ctx.go:GetModel"]}
{"id": "C35", "title": "OS getters never panic", "statement": "GetOS, GetOSVersionString and GetOSVersion return normally for every user agent shorter than 4 GiB with the shipped tables.", "quantifier": "every user agent", "why_tests_cant": "Crash freedom on all inputs against all shipped patterns.", "anchors": ["os.go", "os_repo.go", "ctx.go:GetOS"]}
{"id": "C36", "title": "Device getters never panic", "statement": "GetDeviceType, GetBrand and GetModel return normally for every user agent shorter than 16 MiB with the shipped tables on a context whose device part was computed, not taken from the cache.", "quantifier": "every user agent", "why_tests_cant": "Crash freedom on all inputs against 18 000 shipped entries.", "anchors": ["device_parser.go", "device_repo.go", "vendor_repo.go"]}
{"id": "C37", "title": "Client getters never panic", "statement": "GetClientType, GetBrowser, GetBrowserVersion(String), GetEngine and GetEngineVersion(String) return normally for every user agent with the shipped tables.", "quantifier": "every user agent", "why_tests_cant": "A single user agent that selects an entry with an out-of-range group index crashes the process.", "anchors": ["client_parser.go:evalClient", "client_repo.go", "engine_parser.go"]}
{"id": "C38", "title": "A crash does not poison later lookups", "statement": "If detection of a user agent panics and the caller recovers, a later lookup of the same user agent behaves like the first one.", "quantifier": "every user agent and cache history", "why_tests_cant": "Needs the deferred cache write during a panic.", "anchors": ["client_parser.go:parseClient"]}
{"id": "C39", "title": "Engine selection follows the version thresholds", "statement": "When a browser entry lists engine version thresholds, the engine chosen is the one of the greatest threshold not exceeding the browser's major version, compared numerically.", "quantifier": "every browser version", "why_tests_cant": "All version numbers: the generated code compares strings.", "anchors": ["client_repo.go:__cr_ef", "engine_parser.go:evalEngine", "cmd/uaxplc/mod_client.go:ef", "version.go:getMajor"]}
{"id": "C40", "title": "Engine fallback order", "statement": "The engine is the entry's default or version-selected engine, else the first matching engine pattern, else Blink for Chrome-like agents, else empty; the engine version is taken from the engine's own pattern.", "quantifier": "every user agent and table content", "why_tests_cant": "All inputs.", "anchors": ["engine_parser.go:evalEngine", "ctx.go:GetEngine", "ctx.go:GetEngineVersionString"]}
{"id": "C41", "title": "Type names", "statement": "ClientType.String and DeviceType.String are total; every single-class value has a documented name, every other value is UNK, and different classes have different names.", "quantifier": "every uint8 / uint16 value", "why_tests_cant": "Exhaustive over 256 and 65536 values.", "anchors": ["client.go:String", "device.go:String"]}
{"id": "C42", "title": "String interning of the table compiler", "statement": "buf.add returns a range that denotes exactly the string passed, never disturbs ranges returned earlier, and returns the same range for the same string.", "quantifier": "every sequence of strings", "why_tests_cant": "Unbounded sequences.", "anchors": ["cmd/uaxplc/buf.go:add"]}
{"id": "C43", "title": "Pattern normalisation terminates and removes look-around", "statement": "normalizeRegex terminates without panicking on every pattern, and its result contains no look-behind or negative look-ahead opener when the corresponding detector matched.", "quantifier": "every pattern string", "why_tests_cant": "Loops rewrite the string; termination over all inputs.", "anchors": ["cmd/uaxplc/regex.go:normalizeRegex", "cmd/uaxplc/regex.go:isRegex"]}
{"id": "C44", "title": "Emitted table literals denote the compiled values", "statement": "The hexadecimal literals written by the compiler parse back to the same number for every int8, int32, uint64 and Entry64 value.", "quantifier": "every value of the integer types", "why_tests_cant": "2^64 values.", "anchors": ["cmd/uaxplc/mod.go:hex"]}
{"id": "C45", "title": "Generated engine functions", "statement": "The generated engine function returns the engine of the first listed threshold (in text order) that is not greater, as text, than its argument, and the default otherwise.", "quantifier": "every version map and argument", "why_tests_cant": "All maps and strings.", "anchors": ["cmd/uaxplc/mod_client.go:ef"]}
{"id": "C46", "title": "Batch mode processes every row exactly once", "statement": "In file mode, when the analysis of no row panics, every row of the input is analysed exactly once, whatever the number of worker threads (at least one) and the schedule, and the program terminates. A row whose analysis panics, or zero threads, prevents the batch from finishing.", "quantifier": "every number of rows and threads, every schedule", "why_tests_cant": "Schedules of goroutines and a bounded channel.", "anchors": ["cmd/uaxpl/main.go:passRaw"]}
{"id": "C47", "title": "Returned strings are stable", "statement": "A string returned by a getter keeps its value when the context is later reused or released.", "quantifier": "every later use of the context", "why_tests_cant": "Needs a memory model: the strings alias the context's buffers.", "anchors": ["ctx.go:GetUserAgent", "ctx.go:GetModel", "ctx.go:SetUserAgent"]}
{"id": "C48", "title": "Repeated calls do not accumulate memory", "statement": "Calling a getter again on a context that is not changed in between leaves the context as the first call left it; in particular its buffer does not grow.", "quantifier": "every context state, getter and number of calls", "why_tests_cant": "Return values stay the same; only the growth of a private buffer shows the difference.", "anchors": ["ctx.go:GetOSVersionString", "os.go"]}
{"id": "C49", "title": "Mac user agents are not taken for iOS", "statement": "An operating system entry for iOS is skipped for user agents that look like a Mac, and one for Android for user agents that only claim to be like Android.", "quantifier": "every user agent, on the shipped table", "why_tests_cant": "The rule compares pattern texts, which the table generator rewrites; whether it ever applies depends on all entries.", "anchors": ["os.go:parseOS", "os_repo.go"]}
{"id": "C50", "title": "Reported names contain no unexpanded template", "statement": "No getter reports a name that still contains a placeholder $n of the database.", "quantifier": "every user agent, on the shipped tables", "why_tests_cant": "Over a thousand entries; only those with a template in the name show the problem.", "anchors": ["client_parser.go", "client_repo.go", "ctx.go:GetBrowser"]}
{"id": "C51", "title": "The README example is right", "statement": "For the user agent of the README the getters report the values the README states.", "quantifier": "the README's user agent, on the shipped tables", "why_tests_cant": "No test runs the README.", "anchors": ["readme.md", "ctx.go"]}
{"id": "C52", "title": "Settings of one detection do not influence another", "statement": "With nothing cached, the operating system answers depend on neither filter nor header; device answers do not depend on the client filter; client answers do not depend on the device filter.", "quantifier": "every tables, filters, headers and user agent", "why_tests_cant": "Pairs of runs over all inputs.", "anchors": ["ctx.go", "client_parser.go", "device_parser.go", "os.go"]}
{"id": "C53", "title": "Client of any compiled database", "statement": "For the tables generated from any well-formed database, the client type, name and version reported are those of the first entry of the database that applies, in the order of the client classes.", "quantifier": "every database (entries, patterns, names, versions, engines), replacement maps, filter, user agent below 4 GiB", "why_tests_cant": "All databases; the generated tables intern strings in 64-bit ranges and shared pattern lists.", "anchors": ["cmd/uaxplc/mod_client.go", "client_parser.go:evalClient", "ctx.go:GetBrowser", "ctx.go:GetBrowserVersionString"]}
{"id": "C54", "title": "Engine of any compiled database", "statement": "For the tables generated from any well-formed database, the engine is the one the browser entry names for the major version found, else its default, else the first engine entry that applies; the engine version is what the engine's version pattern captures.", "quantifier": "every database, replacement maps, filter, user agent below 4 GiB", "why_tests_cant": "All databases; generated closures, index tables and version patterns.", "anchors": ["cmd/uaxplc/mod_client.go", "engine_parser.go", "ctx.go:GetEngine", "ctx.go:GetEngineVersionString"]}
{"id": "C55", "title": "Operating system of any compiled database", "statement": "For the tables generated from any well-formed database, the operating system and its version are those of the first entry that applies and is not skipped, with groups substituted.", "quantifier": "every database, replacement maps, user agent below 4 GiB", "why_tests_cant": "All databases.", "anchors": ["cmd/uaxplc/mod_os.go", "os.go", "ctx.go:GetOS", "ctx.go:GetOSVersionString"]}
{"id": "C56", "title": "Device of any compiled database", "statement": "For the tables generated from any well-formed database, device type, brand and model are those of the first brand (alphabetically within a file) that applies and of its first model that applies; without a brand the type comes from the operating system and the words tablet and mobile, the brand from the vendor list.", "quantifier": "every database, replacement maps, filter, user agent below 16 MiB", "why_tests_cant": "All databases; brands, models and vendors are stored in packed ranges.", "anchors": ["cmd/uaxplc/mod_device.go", "cmd/uaxplc/mod_vendor.go", "device_parser.go", "device_parser.go:evalVendor"]}
{"id": "C57", "title": "Header hints of any compiled database", "statement": "For a header present in the database the name given by the first file that has it is reported, and UNK for a header whose hash is that of no entry.", "quantifier": "every database with different keys within a file, every header whose hash is not shared, every user agent", "why_tests_cant": "Headers are only kept as hashes; duplicates across files depend on the order of generation.", "anchors": ["cmd/uaxplc/mod_hint.go", "ctx.go:SetRequestedWith", "ctx.go:GetBrowser"]}
{"id": "C58", "title": "Patterns mean what they say", "statement": "A regular expression that the parser accepts finds a match exactly when some part of the text is in its language; the groups reported are those of the leftmost match which Perl's preference order puts first (left alternative, greedy star once more, lazy star once less), and there is only one such match. Text encoded in UTF-8 is seen as the characters encoded; invalid bytes do not hide or create occurrences of a plain text.", "quantifier": "every pattern of the supported syntax, every text", "why_tests_cant": "All patterns and all texts, including invalid UTF-8; every detection result rests on it.", "anchors": ["client_parser.go:evalClient", "os.go:parseOS", "device_parser.go:evalDevice", "client_repo.go", "os_repo.go", "device_repo.go"]}
{"id": "C59", "title": "Letter case does not matter", "statement": "User agents that differ only in the case of ASCII letters get the same client, client type, engine, brand and device type, and versions, OS names and models that are the same up to case.", "quantifier": "every pair of user agents that differ only in the case of ASCII letters, every filter", "why_tests_cant": "All user agents and spellings; holds for patterns but fails for entries stored as fixed texts and for desktop detection from a captured OS name.", "anchors": ["client_parser.go:evalClient", "os.go:parseOS", "device_parser.go:evalDevice", "device_parser.go:evalVendor", "cmd/uaxplc"]}
{"id": "C60", "title": "Any honest cache is transparent", "statement": "Whatever cache is installed with SetCache, and whenever it is replaced: as long as it answers a look-up only with a miss or with a row stored before under the same user agent (possibly an old one, with another hash and time stamp, or written with MarshalTo and read back with Unmarshal), every getter except GetModel returns, for a user agent whose detection does not panic (C37), what it returns in a program without cache, for any number of goroutines, each with contexts of its own.", "quantifier": "every cache behaviour allowed by the contract, every set of goroutine scripts, every interleaving, every table and filter", "why_tests_cant": "Quantifies over all implementations of the Cache interface, all eviction decisions and all schedules.", "anchors": ["uaxpl.go:SetCache", "uaxpl.go:GetCache", "cache.go:Cache", "cache_entry.go:MarshalTo", "cache_entry.go:Unmarshal", "client_parser.go:parseClient", "os.go:parseOS", "device_parser.go:parseDevice", "ctx.go:fromCache"]}
{"id": "C61", "title": "Structured versions agree with version texts", "statement": "GetBrowserVersion, GetEngineVersion and GetOSVersion hold the numbers of the text that the corresponding ...String getter returns: its leading dot-separated components up to the first one that is no integer, zeros elsewhere; they panic when that getter panics. String() of the structured version is the text of the string getter.", "quantifier": "every user agent, filter, hint and table; the three getter pairs", "why_tests_cant": "All user agents and tables; parse errors are dropped silently, so a partial result looks like a full one. The last sentence fails: 1.2.3 becomes 1.2.3.0.", "anchors": ["ctx.go:GetBrowserVersion", "ctx.go:GetEngineVersion", "ctx.go:GetOSVersion", "ctx.go:GetBrowserVersionString", "ctx.go:GetEngineVersionString", "ctx.go:GetOSVersionString", "version.go:Parse", "version.go:String"]}
{"id": "C62", "title": "Client patterns match at the start of words", "statement": "With the text uaxplc puts around it, a client pattern applies to a user agent exactly when some part of the user agent that is in the language of the pattern (letters up to case) starts at the beginning, after a character that is neither letter, digit, hyphen nor underscore, after an underscore that follows a character which is neither letter, digit nor hyphen, or after sprd- or MZ-. All shipped client patterns are such. A vendor pattern applies when a match of it is followed by a character which is neither small letter nor digit.", "quantifier": "every pattern text the regexp model accepts, every user agent (valid UTF-8 or not); every pattern of the shipped client and vendor tables", "why_tests_cant": "The pattern and the user agent are arbitrary; a wrong boundary shows only for particular neighbours of a match.", "anchors": ["cmd/uaxplc/mod_client.go:Compile", "cmd/uaxplc/mod_vendor.go:Compile", "client_repo.go:__cr_re", "vendor_repo.go:__vr_re", "client_parser.go:evalClient"]}
{"id": "C63", "title": "The report of the command line tool on one user agent", "statement": "With -ua the tool writes, in the order of its lines, the answers a fresh context gives to each question: type, browser, browser version, engine, engine version, device type, brand, model, OS and OS version, whatever the cache and its cleaner do meanwhile; types and versions appear as their String methods show them, so the version printed can differ from the version text the library reports. If the library panics on the client, the file holds the user agent and the heading only.", "quantifier": "every table set, every user agent, every moment of cache cleaning, as long as the internal buffer stays below 4 GiB", "why_tests_cant": "Ten getters run after each other on one context with a cache in between; a getter that disturbs a later one shows only for particular user agents and cleaning moments.", "anchors": ["cmd/uaxpl/main.go:main", "alias.go:NewCtxWithSrcStr", "ctx.go:GetBrowserVersion", "version.go:String"]}
{"id": "C64", "title": "What the command line tool analyses for a URL", "statement": "With -url a run analyses the contents fetched by the first run, on this machine, that could fetch and store for a URL with the same last segment; that may be another URL or older contents, even when the download would work now. Without a slash in the URL, or if nobody could fetch, it fails.", "quantifier": "every sequence of runs, every URL, every behaviour of the network and of writing the file in each run", "why_tests_cant": "The contents depend on the whole history of earlier runs.", "anchors": ["cmd/uaxpl/main.go:passURL"]}
{"id": "C65", "title": "When the library built from a database panics", "statement": "For the library built from any database, with no empty file and no template ending in a dollar, a client getter panics exactly when the version of the client entry that applies names a capture group that its pattern does not have (though small enough to pass the bounds check), an OS getter exactly when the name, the version, or the version of the applicable sub-entry does, and a device getter exactly when notebooks are selected, no device entry applies and the operating system is in that state. Without any operating system in the database every OS getter panics; a model that ends in a dollar makes the device getters panic.", "quantifier": "every database meeting the conditions, every replacement map, both masks, every hint, every user agent below 2^32 (devices: 2^24) bytes", "why_tests_cant": "The database is replaced at every update; whether some entry of a future database can panic for some user agent cannot be tested.", "anchors": ["client_parser.go:parseClient", "os.go:parseOS", "os.go:osEvalVer", "device_parser.go:evalDevice", "device_parser.go:deviceBufMNE1", "cmd/uaxplc/mod_client.go", "cmd/uaxplc/mod_os.go", "cmd/uaxplc/mod_device.go"]}
{"id": "C66", "title": "The built-in cache has no data races and no deadlocks", "statement": "Under the Go memory model, in every execution of any number of goroutines that use the built-in cache through the getters, every two conflicting accesses to the map, the slice or a field of a row are ordered by happens-before; and every execution can be continued until all goroutines have finished. This rests on Set being called with new rows: storing a row returned by Get again does race.", "quantifier": "every number of goroutines, every sequence of cache calls of each (depending on earlier answers), every interleaving of single memory accesses with each other, with init and with the cleaner, every clock", "why_tests_cant": "The race detector sees only the interleavings that happen to occur.", "anchors": ["cache.go:init", "cache.go:Set", "cache.go:Get", "cache.go:clean", "client_parser.go:parseClient", "os.go:parseOS", "device_parser.go:parseDevice"]}
{"id": "C67", "title": "Cache calls are atomic", "statement": "Whatever answers goroutines get when single memory accesses of their cache calls, of init and of the cleaner are interleaved, they also get when whole calls of Get, Set and clean are interleaved; no goroutine panics inside the cache; so each getter of each goroutine answers as it does alone (except the model, C21).", "quantifier": "every number of goroutines, every script of uses of contexts in each, every tables, masks and clocks, every interleaving of single accesses", "why_tests_cant": "The number of interleavings of single accesses is astronomical.", "anchors": ["cache.go:init", "cache.go:Set", "cache.go:Get", "cache.go:clean", "client_parser.go:parseClient", "os.go:parseOS", "device_parser.go:parseDevice"]}
{"id": "C68", "title": "A context asks the cache at most three times", "statement": "After SetUserAgent, any number of getter calls in any order makes at most three look-ups and three stores in the cache, all under the user agent. One getter makes at most one (a device getter two), whatever the cache answers, and a second getter about the same thing makes none. The bound of three needs a cache that no other context uses for the same user agent; with a shared cache it is false.", "quantifier": "every tables, user agent, masks, sequence of getters, initial row of the cache, and every behaviour of the cache (losing rows at any time); for single getters every answer", "why_tests_cant": "The number of calls depends on the order of getters, on what the cache holds and on what it loses.", "anchors": ["ctx.go:GetClientType", "client_parser.go:parseClient", "os.go:parseOS", "device_parser.go:parseDevice", "ctx.go:fromCache"]}
{"id": "C69", "title": "Compiling a database twice gives the same tables", "statement": "The tables the compiler makes do not depend on the order in which Go ranges over the maps of the parsed database (brands, vendors, hints, engine versions), which is random in every run: two readings of the same files give the same library.", "quantifier": "every database of any size, every replacement and type map, every two orders of ranging over each map", "why_tests_cant": "Map order is random and its number of outcomes factorial; a dependence may show only on rare orders.", "anchors": ["cmd/uaxplc/mod_client.go:ef", "cmd/uaxplc/mod_client.go:Compile", "cmd/uaxplc/mod_device.go:Compile", "cmd/uaxplc/mod_vendor.go:Compile", "cmd/uaxplc/mod_hint.go:Compile"]}
{"id": "C70", "title": "The generated Go source declares the compiled tables", "statement": "Each of the five Go files uaxplc writes, read as Go source (tokens, automatic semicolons, literals, composite literals, constant ranges, distinct map keys), declares exactly the tables the compiler made; so for every database whose patterns contain no back-quote or carriage return, whose thresholds contain no quote, backslash or newline, whose group references are proper and whose hint keys have distinct hashes, a program built from the files has the tables built K D of which the other claims speak. Without each of these conditions the claim is false.", "quantifier": "every table of any size and content, every database meeting the conditions, every program argument and file name without newline", "why_tests_cant": "The shipped files are one output; that no entry, index, offset or pattern of any other database is misprinted cannot be tried out.", "anchors": ["cmd/uaxplc/mod_client.go:Compile", "cmd/uaxplc/mod_os.go:Compile", "cmd/uaxplc/mod_device.go:Compile", "cmd/uaxplc/mod_vendor.go:Compile", "cmd/uaxplc/mod_hint.go:Compile", "cmd/uaxplc/mod.go:hex"]}
{"id": "C71", "title": "The program built from the generated files starts", "statement": "Every pattern the compiler puts into the generated files is accepted by regexp.MustCompile, so that initialising the package does not panic: text put around or behind an accepted pattern (the word-start group, the (?i) flag, the vendor and engine tails) never makes it unacceptable. The shipped package starts. For vendor patterns and engine names, which uaxplc does not check, the claim is false.", "quantifier": "every database and every replacement and type map; every pattern of the modelled syntax", "why_tests_cant": "The wrapper texts are concatenated blindly; whether some pattern becomes invalid by them (unbalanced groups, quantifiers) is a question about all patterns.", "anchors": ["cmd/uaxplc/mod_client.go:Compile", "cmd/uaxplc/mod_os.go:Compile", "cmd/uaxplc/mod_device.go:Compile", "cmd/uaxplc/mod_vendor.go:Compile", "client_repo.go", "device_repo.go", "os_repo.go", "vendor_repo.go"]}
{"id": "C72", "title": "Narrowing a filter keeps an answer it still allows", "statement": "If a client filter is narrowed to one that still has the client type reported (or nothing was reported), every getter answers as before; device answers stay the same when the narrower filter keeps the class of the entry found, or, without an entry, the notebooks. Filters put together answer, in all getters at once, like one of them. Read by the device type reported instead of the class the claim is false: the bits of tablets and phablets decide nothing, so a filter for tablets alone finds no tablet of the database.", "quantifier": "every tables, pairs and lists of filters, header hash and user agent, nothing cached, detection that does not panic", "why_tests_cant": "Pairs of runs over all filters, tables and user agents; tests compare single filters on a few user agents.", "anchors": ["ctx.go:FilterClientType", "ctx.go:FilterDeviceType", "client_parser.go:parseClient", "device_parser.go:parseDevice", "device_parser.go:evalDevice"]}
{"id": "C73", "title": "Batch mode reports what the library says about each row alone", "statement": "For a file of rows about different user agents (different hashes) whose detection does not panic, analysed by any number of workers sharing the cache and the pool of contexts: whenever the program ends normally, every row has been counted once and the output file consists, in some order and each in one piece, of the reports of the rows for the answers the library gives for the user agent alone; every run can be continued to that end. With a row whose client detection panics no run ends normally. With user agents occurring in several rows all answers but the model are still those of the library; the model is not, so the file can report a mismatch that is not there.", "quantifier": "every tables, number of threads, list of rows, spelling function, schedule of workers, producer, cache calls, cleaning passes and pool drops", "why_tests_cant": "Schedules of several goroutines over one cache; the tests run the parser on one user agent at a time and never the tool.", "anchors": ["cmd/uaxpl/main.go:passRaw", "alias.go:AcquireWithSrcStr", "pool.go:Release", "cache.go:Get", "cache.go:Set", "cache.go:clean"]}
{"id": "C74", "title": "An answer depends only on the databases of its own kind", "statement": "For two programs built from databases that agree on clients and hints, every answer about the client is the same for every user agent, whatever the other databases are; the same for operating systems with the OS database, and for devices with the device, vendor and OS databases. Brand and model need only the device and vendor databases to agree, provided detection panics in neither program. The device type is not determined by the device and vendor databases alone.", "quantifier": "every pair of databases, compiler, filters, hint, user agent and getter of the kind", "why_tests_cant": "Compares two differently generated programs; the tests have one set of tables.", "anchors": ["ctx.go:GetBrowser", "ctx.go:GetOS", "ctx.go:GetDeviceType", "ctx.go:GetBrand", "ctx.go:GetModel", "device_parser.go:parseDevice", "cmd/uaxplc/mod_client.go", "cmd/uaxplc/mod_os.go", "cmd/uaxplc/mod_device.go"]}
{"id": "C75", "title": "Entries that do not apply change nothing", "statement": "Take two databases, both well formed, and a user agent. If in every client class the first entry that applies to the user agent is the same entry in both (or none applies in either), then client type, browser, browser version and engine are the same in the programs built from them; with the same condition on the OS entries, OS name and version are the same; if in every device file the same brands apply and the same vendors have a fragment that is found, whatever their order, then device type, brand and model are the same. So putting in entries that do not apply, or appending entries behind one that applies, changes no answer, with one exception: the engine version also depends on which engine names occur anywhere in the client database.", "quantifier": "every pair of well-formed databases, compiler, filters, hint and user agent shorter than 2^32 bytes for which neither detection panics", "why_tests_cant": "Compares two differently generated programs, whose buffers, offsets and pattern numbers all differ; the tests have one set of tables.", "anchors": ["client_parser.go:evalClient", "engine_parser.go:evalEngine", "os.go:parseOS", "device_parser.go:evalDevice", "device_parser.go:evalVendor", "cmd/uaxplc/mod_client.go", "cmd/uaxplc/mod_os.go", "cmd/uaxplc/mod_device.go", "cmd/uaxplc/mod_vendor.go"]}
{"id": "C76", "title": "Names are never empty and UNK means that nothing was found", "statement": "With the shipped tables: GetBrowser, GetOS and GetBrand never return the empty string. Without a header hint GetBrowser returns UNK exactly when the client type is 0, and then browser version, engine and engine version are empty. GetOS returns UNK exactly when no OS entry applies, and then the OS version is empty. When the brand is UNK the model is empty. An engine is reported only for browsers, and an engine version only together with an engine. An empty engine, however, does not mean that no engine pattern applies.", "quantifier": "every user agent (shorter than 2^32 bytes, 2^24 for devices), filter and header hint", "why_tests_cant": "Relates answers of several getters over all user agents; for OS names taken from the user agent it needs to be known what the group of a pattern can capture.", "anchors": ["ctx.go:GetBrowser", "ctx.go:GetOS", "ctx.go:GetOSVersionString", "ctx.go:GetBrand", "ctx.go:GetModel", "ctx.go:GetEngine", "ctx.go:GetEngineVersionString", "engine_parser.go:evalEngine", "client_repo.go:__cr_ef", "os_repo.go:__or_os"]}
{"id": "C77", "title": "Every shipped pattern means what it says", "statement": "For patterns written in the usual syntax (characters, escapes, classes with ranges and shorthands, groups, alternatives, repetitions, anchors, a leading (?i)) the pattern matches a text exactly when some part of the text is denoted by the written pattern, and the match has one pair of positions for each capturing group. Every pattern of the shipped tables is written in this syntax.", "quantifier": "every pattern of the grammar in UTF-8, every text; every pattern of the shipped tables", "why_tests_cant": "Infinitely many patterns and texts; a wrong reading of one construct (a hyphen in a class, the scope of |, the upper bound of a repetition) shows only on texts that tell the readings apart.", "anchors": ["client_repo.go:__cr_re", "client_repo.go:__cr_evre", "os_repo.go:__or_re", "vendor_repo.go:__vr_re", "device_repo.go:__dr_re", "device_parser.go:reForceTablet", "device_parser.go:reForceMobile"]}
{"id": "C78", "title": "Leaving out look-arounds only widens a pattern", "statement": "normalizeRegex removes the negative look-aheads and look-behinds of a pattern and nothing else; every text the pattern matches (in PCRE's sense) is matched by the normalised pattern, and the normalised pattern has as many capturing groups as the original when no look-around captures.", "quantifier": "every pattern of the grammar whose look-arounds are not repeated, not empty, not nested and hold round brackets only as groups; every text", "why_tests_cant": "Compares two pattern languages (PCRE with look-arounds and Go without) over all patterns and texts.", "anchors": ["cmd/uaxplc/regex.go:normalizeRegex", "cmd/uaxplc/regex.go:reNegativeLookahead"]}
{"id": "C79", "title": "No bytes of an earlier user agent are shown", "statement": "Every string a getter returns is made of the tables, the user agent at hand and the model text derived from it; bytes that an earlier analysis has left in the context's buffers, beyond their length, are never shown.", "quantifier": "every history of a context (user agents, Release and Acquire, headers, filters), every cache answer, every capacity of the buffers", "why_tests_cant": "Go lets a slice expression reach beyond the length up to the capacity, so what is read depends on all earlier uses of a pooled context and on the growth of its buffers.", "anchors": ["ctx.go:GetModel", "ctx.go:fromCache", "ctx.go:reset", "pool.go:Put", "cache_entry.go:FromCtx"]}
{"id": "C80", "title": "Records outlive the program only if the texts keep their places", "statement": "A record that a program left in a cache gives, when a program built from another database reads it, what the first program would have answered, whenever the texts of the second program begin with those of the first (as after adding operating systems at the end of the list). With any other change of the database the answer is still that of one of the two programs.", "quantifier": "all tables and databases, user agents, filters, headers, getters, and all records any number of goroutines can leave in an honest cache", "why_tests_cant": "Tests run one build; the cache interface and the serialised form of records exist for caches outside the process, which survive upgrades, and records hold positions in generated buffers.", "anchors": ["cache_entry.go:MarshalTo", "cache_entry.go:Unmarshal", "ctx.go:fromCache", "ctx.go:GetOS", "cmd/uaxplc/buf.go:add", "cmd/uaxplc/mod_os.go:Compile", "cache.go:CacheInterface"]}
{"id": "C81", "title": "What a damaged record can do", "statement": "Whatever record the cache answers with, a getter panics exactly if the position it reads is not 0 and lies outside its buffer, getters that read no position never panic, and every text shown is a part of the tables or of the user agent. A change of one byte in a serialised record is noticed when it is read.", "quantifier": "all tables, all records (well formed or not), all user agents, filters and getters but GetModel", "why_tests_cant": "Caches outside the process may return anything; tests use records that were just stored.", "anchors": ["cache_entry.go:Unmarshal", "ctx.go:fromCache", "ctx.go:GetBrowser", "ctx.go:GetBrowserVersionString", "ctx.go:GetEngine", "ctx.go:GetEngineVersionString", "ctx.go:GetBrand", "ctx.go:GetOS", "ctx.go:GetOSVersionString"]}
{"id": "C82", "title": "A pooled context has one user at a time", "statement": "Between Acquire and Release a context is touched by the one who acquired it only, and behaves as a new context of their own, whatever others do with the contexts of the pool.", "quantifier": "every interleaving of any number of users acquiring, using and releasing contexts, every choice of the pool, every answer of the cache", "why_tests_cant": "What the pool hands out depends on the scheduler, and one misplaced Release shows only when two other goroutines run at the same time.", "anchors": ["pool.go:Get", "pool.go:Put", "pool.go:Acquire", "pool.go:Release", "ctx.go:Reset"]}
{"id": "C83", "title": "The size of the built-in cache follows the traffic", "statement": "With cleaning passes every half minute, the built-in cache never holds more than 122 rows per call of the busiest half minute; an hour after the last call it is empty after as many passes as its size has binary digits; within the hour it holds one row for every hash set.", "quantifier": "every history of Set, Get and cleaning passes with fresh rows, a clock that does not go back, every number of calls", "why_tests_cant": "The bound concerns hours of traffic and the interplay of the pass that leaves rows behind with the rows that expire meanwhile.", "anchors": ["cache.go:Set", "cache.go:Get", "cache.go:clean", "cache.go:init"]}
{"id": "C84", "title": "What a run of uaxplc does", "statement": "A run of uaxplc changes at most one file: the target named by the flags (or the default of the module), and only after every file of the input was read and parsed; a run that ends well wrote it. Five runs, one for each module, leave Go source declaring exactly the tables compiled from the database. A missing input is an error, and a path names the file it says.", "quantifier": "every command line, every file system, every YAML reader, every behaviour of format.Source that keeps the meaning of a file, every database that can be written", "why_tests_cant": "Command lines, file systems and databases are unbounded, and what a failed run leaves behind depends on where it failed.", "anchors": ["cmd/uaxplc/main.go:main", "cmd/uaxplc/main.go:init", "cmd/uaxplc/mod_client.go:Compile", "cmd/uaxplc/mod_device.go:Compile", "cmd/uaxplc/mod_os.go:Compile", "cmd/uaxplc/mod_vendor.go:Compile", "cmd/uaxplc/mod_hint.go:Compile", "cmd/uaxplc/mod_bot.go:Compile"]}
{"id": "C85", "title": "The files of a run of uaxpl", "statement": "A run of uaxpl changes its output file and, in URL mode, adds the download if there was none; no other file. A batch from a file that ends normally reports on the rows the file held before the run, and leaves it as it was.", "quantifier": "every set of flags, every file system, every JSON reader, every network, every schedule of the goroutines", "why_tests_cant": "Which files a run may touch is a claim about all file systems and all ways a run can end, including crashes of one goroutine among many.", "anchors": ["cmd/uaxpl/main.go:main", "cmd/uaxpl/main.go:passRaw", "cmd/uaxpl/main.go:passFile", "cmd/uaxpl/main.go:passURL"]}
{"id": "C86", "title": "One context read by several goroutines", "statement": "When every getter of a context has been called once, any number of goroutines may call its getters at the same time: there is no data race, the context does not change, and everyone gets the answers they would get alone.", "quantifier": "every set of tables, every context, every number of goroutines with any sequences of getter calls, every interleaving of their single accesses", "why_tests_cant": "A race shows only in some schedules; the claim is about all interleavings of single field accesses of any number of goroutines.", "anchors": ["ctx.go:GetOSVersionString", "ctx.go:GetBrowserVersion", "ctx.go:GetEngineVersion", "ctx.go:GetOSVersion", "ctx.go:GetModel", "version.go:Parse"]}
{"id": "C87", "title": "Entries that can never answer", "statement": "Every entry of the shipped database can answer: for each operating system, client, engine and device of the tables there is a user agent for which it is the first of its list to apply. (Refuted: three operating systems, nine clients and forty-three devices can never answer, and only those; the program behaves the same without them.)", "quantifier": "every entry of the OS, client and device tables, every user agent (any byte sequence); for the removal every getter, every context, every reply of the cache", "why_tests_cant": "That no user agent whatsoever reaches an entry is a statement about all texts; a test can only fail to find one.", "anchors": ["os_repo.go:__or_os", "client_repo.go:__cr_idx", "device_repo.go:__dr_idx", "os.go:parseOS", "client_parser.go:evalClient", "device_parser.go:evalDevice", "engine_parser.go:evalEngine"]}
{"id": "C88", "title": "Phones behind the Motorola pattern", "statement": "A user agent that names Android and a phone of the database is reported with the brand of that phone. (Refuted: the shipped Motorola pattern, whose alternative DROID is read without regard to case and without the restriction the compiler means to add, applies to every user agent with \"Android \" and a letter or a digit. So no phone listed behind it can be chosen, whatever the user agent says; OnePlus, OPPO, Vivo, Realme, ZTE and others are never reported, and the Samsung user agent of the project's own test data is reported as Motorola.)", "quantifier": "every user agent with \"Android \" followed by a letter or digit, of fewer than 16 MiB for the brand; every mask with mobile devices on", "why_tests_cant": "The claim is about all texts that contain a common word; tests sample a few user agents, and custom_test.go only logs a wrong brand and does not fail.", "anchors": ["device_repo.go:__dr_idx", "device_repo.go:__dr_re", "device_parser.go:evalDevice", "ctx.go:GetBrand", "cmd/uaxplc/mod_device.go:reReplDevice"]}
{"id": "C89", "title": "Device names inside words", "statement": "A device is recognised only where its name starts a word, as clients are (C62). (Refuted: every device pattern but one ignores what precedes the name, so an entry that applies to a text still applies whatever is put in front of it. Twelve short words, such as \"quest\", \"lg\", \"mot\" or \"eko\", therefore decide the phone also from inside longer words, in any letters; \"python-requests/2.25.1\" is a CUBOT phone.)", "quantifier": "every entry of the five device tables but one and every prefix; every user agent with one of twelve words anywhere, of fewer than 16 MiB for the brand; every mask with mobile devices on", "why_tests_cant": "The claim is about all texts that contain a word somewhere; the project's tests sample real phones only and never ask for the brand of a program.", "anchors": ["device_repo.go:__dr_idx", "device_repo.go:__dr_re", "device_parser.go:evalDevice", "ctx.go:GetBrand", "cmd/uaxplc/mod_device.go:Compile"]}
{"id": "C90", "title": "The command line of uaxpl", "statement": "A run of uaxpl is determined by the last values given for -ua, -file, -url, -out and -threads, or their defaults; -format and -verbose make no difference to the files and the exit code; a command line that does not spell settings of the seven flags is refused before any file is touched. A value for -verbose in an argument of its own ends the flags, so that whatever follows is ignored and the run fails.", "quantifier": "every list of arguments, every state of the file system, tables, input and server", "why_tests_cant": "Command lines are texts of any length and shape, and numbers may be written in many ways; the project has no tests of the command.", "anchors": ["cmd/uaxpl/main.go:init", "cmd/uaxpl/main.go:main", "cmd/uaxpl/main.go:threads", "cmd/uaxpl/main.go:format", "cmd/uaxpl/main.go:verbose"]}
{"id": "C91", "title": "Operating system names inside words", "statement": "An operating system is reported for a name that stands in the user agent as a word (or starts one), not for letters that happen to stand inside a longer word.", "quantifier": "for every user agent and every entry of the operating system table", "why_tests_cant": "tests use user agents of real systems; that letters inside the name of any program are taken for an operating system shows only when all user agents containing them are considered", "anchors": ["os.go:parseOS", "os_repo.go:__or_os", "os_repo.go:__or_re"]}
{"id": "C92", "title": "Which settings count", "statement": "In any sequence of SetUserAgent, SetRequestedWith, FilterClientType, FilterDeviceType, Reset and getter calls on one context, every getter answers as it would alone on a context with the user agent set last, the header set since then, and each filter as it was when the first getter about the client (about the device) was called on that user agent; SetUserAgent keeps the filters and forgets the header, Reset forgets everything.", "quantifier": "for all tables, all call sequences of any length, all user agents, headers and filter masks for which detection does not panic and the buffer stays below 4 GB", "why_tests_cant": "the order of setters and getters is unbounded; tests set everything first and then ask", "anchors": ["ctx.go:SetUserAgent", "ctx.go:SetRequestedWith", "ctx.go:FilterClientType", "ctx.go:FilterDeviceType", "ctx.go:Reset", "client_parser.go:parseClient", "device_parser.go:parseDevice"]}
{"id": "C93", "title": "User agents without words are unknown", "statement": "With the shipped tables, a user agent with fewer than two letters or digits is unknown in every respect - client type and device type 0, browser, operating system and brand UNK, no versions, no engine, no model - and no getter panics; two letters or digits are enough for a browser, an operating system and a phone.", "quantifier": "for all user agents shorter than 16 MiB with at most one letter, digit or non-ASCII byte, all filters and all headers (the browser name without a header)", "why_tests_cant": "there are infinitely many such user agents, and a single pattern among some 14000 that matches without a letter would answer for all of them", "anchors": ["client_repo.go:__cr_idx", "os_repo.go:__or_os", "device_repo.go:__dr_idx", "vendor_repo.go:__vr_re", "device_parser.go:parseDevice", "os.go:parseOS", "client_parser.go:parseClient"]}
{"id": "C94", "title": "Version strings contain no markup", "statement": "With the shipped tables, a browser version consists of ASCII letters, digits, plus signs, hyphens, dots and underscores, and an operating system version of letters, digits, spaces and dots (or is one of eleven constants), whatever the user agent contains; characters outside ASCII may occur. So neither can carry quotes, angle brackets or line breaks into a page or a log. The same holds of engine versions.", "quantifier": "for all user agents, filters and headers", "why_tests_cant": "a user agent can contain any bytes; the claim is about what each of the capture groups of some 2000 patterns can ever match", "anchors": ["client_repo.go:__cr_idx", "client_repo.go:__cr_re", "os_repo.go:__or_os", "os_repo.go:__or_ov", "ctx.go:GetBrowserVersionString", "ctx.go:GetOSVersionString", "ctx.go:GetEngineVersionString"]}
{"id": "C95", "title": "Versions have their placeholders expanded", "statement": "No version reported contains a placeholder such as $1 that was meant to be replaced by what the pattern captured.", "quantifier": "for all user agents, filters and headers", "why_tests_cant": "which of 200 sub-versions keep a placeholder, and whether a user agent can reach them, depends on the order of all entries", "anchors": ["os_repo.go:__or_ov", "os_repo.go:__or_os", "cmd/uaxplc/mod_os.go:parseInx", "ctx.go:GetOSVersionString"]}
{"id": "C96", "title": "Names contain no markup", "statement": "With the shipped tables, the names of browser, engine, brand, model and operating system contain no control characters, quotes, back-quotes, angle brackets or backslashes, whatever the user agent and the header contain.", "quantifier": "for all user agents shorter than 16 MiB, filters and headers", "why_tests_cant": "user agents are attacker-controlled and may contain any bytes; some names are taken from the user agent by capture groups", "anchors": ["ctx.go:GetBrowser", "ctx.go:GetEngine", "ctx.go:GetBrand", "ctx.go:GetModel", "ctx.go:GetOS", "client_repo.go:__cr_buf", "device_repo.go:__dr_buf", "os_repo.go:__or_buf", "vendor_repo.go:__vr_buf", "hint_repo.go:__hr_buf"]}
{"id": "C97", "title": "Chrome, Edge and Firefox on desktop systems are recognised with every version", "statement": "With the shipped tables, the user agents of Chrome, Edge and Firefox on Windows 10, Mac OS X and Linux are, whatever their version numbers (two characters or more), reported as browsers under their names, with exactly the version they state and the name of the system; the version of Windows is 10 and that of Linux is unknown.", "quantifier": "for all version numbers (a digit, then digits and dots, not ending with a dot) with user agents shorter than 16 MiB, all filters that leave browsers switched on", "why_tests_cant": "some 2500 client patterns and 300 system patterns are tried before the right one, and each of them could match some version number; versions are unboundedly many", "anchors": ["ctx.go:GetBrowser", "ctx.go:GetBrowserVersionString", "ctx.go:GetClientType", "ctx.go:GetOS", "ctx.go:GetOSVersionString", "parse.go:parse", "client_repo.go:__cr_idx", "os_repo.go:__or_os"]}
{"id": "C98", "title": "Desktop browsers run on desktop computers", "statement": "With the shipped tables, Chrome, Edge and Firefox on Windows 10, Mac OS X and Linux are reported as desktop computers without brand and model, whatever their version numbers.", "quantifier": "for all version numbers, all filters that leave desktop devices switched on", "why_tests_cant": "some 20000 device patterns are tried first, many of which are bare numbers that may occur in a version", "anchors": ["ctx.go:GetDeviceType", "ctx.go:GetBrand", "ctx.go:GetModel", "parse.go:parse", "device_repo.go:__dr_idx", "vendor_repo.go:__vr_idx"]}
{"id": "C99", "title": "Desktop browsers are reported with their engines", "statement": "With the shipped tables, the engine of desktop Firefox is Gecko, that of Edge is Blink, and that of Chrome is Blink from version 28 on and WebKit before, whatever the versions.", "quantifier": "for all version numbers (Chrome: major versions below 1000), all filters that leave browsers switched on", "why_tests_cant": "versions are unboundedly many and thresholds are compared as texts; tests would have to try each major version", "anchors": ["ctx.go:GetEngine", "engine_parser.go:evalEngine", "client_repo.go:__cr_ef", "client_repo.go:__cr_idx"]}
{"id": "C100", "title": "Safari on an iPad is a tablet", "statement": "With the shipped tables, Safari on an iPad is reported as a tablet, and Safari on an iPhone, which does not state a model, is not reported as a particular model.", "quantifier": "for all system and browser versions, all filters that leave mobile devices switched on", "why_tests_cant": "the answer is decided by the first of 276 patterns of one vendor, after some 1000 vendors; a test shows one version", "anchors": ["ctx.go:GetDeviceType", "ctx.go:GetBrand", "ctx.go:GetModel", "parse.go:parse", "device_repo.go:__dr_re"]}
{"id": "C101", "title": "Chrome on Android phones is recognised with every version", "statement": "With the shipped tables, Chrome on an Android phone that names no model is reported as the browser Chrome Mobile with exactly the stated version, on Android with exactly the stated release.", "quantifier": "for all version numbers, all releases, all filters that leave browsers switched on", "why_tests_cant": "two unbounded numbers in one text, and some 600 browser and 350 system patterns; tests show a few pairs", "anchors": ["ctx.go:GetBrowser", "ctx.go:GetBrowserVersionString", "ctx.go:GetOS", "ctx.go:GetOSVersionString", "client_repo.go:__cr_idx", "os_repo.go:__or_os"]}
{"id": "C102", "title": "HTTP libraries are libraries and not phones", "statement": "With the shipped tables, curl, Wget and python-requests are reported as libraries with their names and exactly the stated version and without an operating system, and with no device.", "quantifier": "for all version numbers (devices: all releases of two numerals and a digit), all filters that leave libraries (devices: mobiles) switched on", "why_tests_cant": "unbounded version numbers against some 1200 client, 350 system and 2000 device patterns; a test shows a few versions, and none of the tests looks at the device of a library", "anchors": ["ctx.go:GetClientType", "ctx.go:GetBrowser", "ctx.go:GetBrowserVersionString", "ctx.go:GetDeviceType", "ctx.go:GetBrand", "client_repo.go:__cr_idx", "device_repo.go:__dr_idx"]}
{"id": "C103", "title": "Safari on an iPhone is recognised with every version", "statement": "With the shipped tables, Safari on an iPhone is reported as the browser Mobile Safari with exactly the stated version, on iOS with the stated release, its underscores turned into dots.", "quantifier": "for all version numbers, all releases of any number of numerals (the first of one or two digits and not 19), all filters that leave browsers switched on", "why_tests_cant": "two unbounded numbers in one text, one of them of any number of parts, and some 600 browser and 350 system patterns; tests show a few pairs", "anchors": ["ctx.go:GetBrowser", "ctx.go:GetBrowserVersionString", "ctx.go:GetOS", "ctx.go:GetOSVersionString", "client_repo.go:__cr_idx", "os_repo.go:__or_os"]}
{"id": "C104", "title": "Patterns find the match they prefer, with the groups they capture", "statement": "Where a pattern matches in several ways, the match found is the one Perl would find for the pattern as it is written: at the first position where there is a way, the first way in the order alternatives from left to right, more repetitions before fewer (fewer before more if marked lazy), earlier parts of the pattern deciding before later ones. Every group reports what it captured last, or nothing. This is so for every pattern of the shipped tables.", "quantifier": "every pattern of the grammar in UTF-8, every text; every pattern of the shipped tables", "why_tests_cant": "infinitely many patterns and texts; versions and models are cut out of the user agent by groups, and which part they get depends on the order of the alternatives and on greediness", "anchors": ["client_repo.go:__cr_re", "os_repo.go:__or_re", "device_repo.go:__dr_re", "client.go:evalClient", "os.go:parseOS", "device.go:parseDevice"]}
{"id": "C105", "title": "Chrome, Firefox and Edge on an iPhone are recognised with every version", "statement": "With the shipped tables, Chrome, Firefox and Edge on an iPhone are reported as browsers under their own names with exactly the stated version, on iOS with the stated release, its underscores turned into dots.", "quantifier": "for the user agents of the three browsers, all version numbers, all releases of two or more numerals (the first of one or two digits and not 19), all filters that leave browsers switched on", "why_tests_cant": "two unbounded numbers in one text, and the name of each browser ends in iOS, so the pattern of the system can match in two places; tests show a few pairs, and only versions starting with 19 go wrong", "anchors": ["ctx.go:GetBrowser", "ctx.go:GetBrowserVersionString", "ctx.go:GetOS", "ctx.go:GetOSVersionString", "client_repo.go:__cr_idx", "os_repo.go:__or_os"]}
{"id": "C106", "title": "Vivaldi and Opera on desktop systems are recognised with every version", "statement": "With the shipped tables, Vivaldi and Opera on Windows, Mac and Linux, which name Chrome first and themselves last, are reported as browsers under their own names with exactly their own versions and with the name of the system; the version of Windows is 10 and that of Linux is unknown.", "quantifier": "for the two browsers on the three systems, all version numbers of the browser, all version numbers of Chrome, all filters that leave browsers switched on", "why_tests_cant": "two unbounded numbers in one text, and several hundred patterns tried before the right one must all miss whatever the digits; the pattern of Opera treats versions starting with 9.80 specially; tests show a few pairs", "anchors": ["ctx.go:GetBrowser", "ctx.go:GetBrowserVersionString", "ctx.go:GetOS", "ctx.go:GetOSVersionString", "client_repo.go:__cr_idx", "os_repo.go:__or_os"]}
{"id": "C107", "title": "A version written as a dollar and a number refers to the group of that number", "statement": "When the command compiles the files of the database, a version or name written as a dollar sign and a number becomes a reference to the group of that number.", "quantifier": "for all texts after the dollar, in client versions, operating system versions (alone or in lists) and operating system names", "why_tests_cant": "the number is parsed with 64 bits and stored in 8; the tables shipped use only small numbers, so tests never see a sign, a number that does not fit or a text that is no number", "anchors": ["cmd/uaxplc/mod_client.go:Compile", "cmd/uaxplc/mod_os.go:parseInx"]}
{"id": "C108", "title": "A reference to a group that the pattern lacks is ignored", "statement": "When a client entry applies whose version is a dollar and a number, the group of that number is the version; if the pattern has no such group, no version is reported.", "quantifier": "for all numbers, all patterns and all user agents", "why_tests_cant": "the number is doubled in eight bits and compared with twice the number of groups; which of the 256 remainders read a group, are ignored or panic depends on the number of groups, and the shipped tables use only small numbers", "anchors": ["client_parser.go:evalClient", "cmd/uaxplc/mod_client.go:Compile"]}
{"id": "C109", "title": "In an operating system entry, a reference to a group that the pattern lacks is ignored", "statement": "When an operating system entry applies whose version or name is a dollar and a number, the group of that number is the version or name; if the pattern has no such group, the reference is ignored.", "quantifier": "for all texts after the dollar, all patterns and all user agents; names, versions and entries of lists of versions", "why_tests_cant": "as for C108; in addition a text that is no number becomes group 1, and a name that is read changes the text later names are cut from", "anchors": ["os.go:parseOS", "cmd/uaxplc/mod_os.go:parseInx"]}
