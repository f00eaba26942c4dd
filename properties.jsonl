{"id": "C01", "title": "DN normalisation is stable", "statement": "Normalising a DN and then normalising the result again gives the same text, so a DN the server has produced (as bind identity, as stored key, or as the DN of a renamed entry) can be fed back and names the same entry.", "quantifier": "every DN string that parses, whose attribute types are ordinary LDAP descriptors and whose last value does not end in a space; every case-folding function that is idempotent and agrees with ASCII lower-casing on ASCII text", "why_tests_cant": "The DN space is infinite and the interesting cases are combinations of escapes, leading/trailing blanks, control bytes and non-ASCII bytes in arbitrary positions.", "anchors": ["pkg/ldapdn/ldapdn.go:Normalize", "pkg/ldapdn/ldapdn.go:encodeRDNValue", "pkg/ldapdn/ldapdn.go:ParseNormalize"]}
{"id": "C02", "title": "Normalised DNs collide only for equal names", "statement": "Two DNs have the same normalised text exactly when they have the same number of RDNs and, position by position, the same number of type/value pairs whose types and values are equal after case folding. Hence two differently named entries never share a database key.", "quantifier": "every pair of parsed DNs with descriptor attribute types and at least one type/value pair per RDN, values being arbitrary byte strings", "why_tests_cant": "Injectivity ranges over all pairs of DNs; a collision is a single adversarial pair that a test suite would have to guess.", "anchors": ["pkg/ldapdn/ldapdn.go:Normalize", "pkg/ldapdn/ldapdn.go:encodeRDNValue"]}
{"id": "C03", "title": "Escaping of RDN values is lossless", "statement": "Every attribute value written into a DN by the server (any bytes, including NUL, commas, plus signs, blanks, quotes and non-ASCII bytes) is read back unchanged by the DN parser, and the escaped text contains no unescaped separator.", "quantifier": "every byte string used as an RDN value", "why_tests_cant": "Byte strings are unbounded; escaping bugs appear only for particular neighbour/position combinations.", "anchors": ["pkg/ldapdn/ldapdn.go:encodeRDNValue"]}
{"id": "C04", "title": "Unrestricted attribute types break DN uniqueness", "statement": "The collision freedom of C02 does not extend to DNs whose attribute type contains an escaped separator, nor does normalisation identify two spellings of a multi-valued RDN that differ only in the order of the pairs: the same database key can stand for two different names, and two entries with equal DNs can coexist.", "quantifier": "existence of DN pairs accepted by the parser", "why_tests_cant": "Needs a constructed pair of DNs; ordinary tests use ordinary attribute types.", "anchors": ["pkg/ldapdn/ldapdn.go:Normalize", "pkg/ldapdn/ldapdn.go:FIXME multivalued RDN"]}
{"id": "C05", "title": "A modify touches only the attributes it names", "statement": "After a successful modify, every attribute of the entry whose name is not (case-insensitively) named by one of the changes has exactly the values, spelling and relative order it had before, and the DN is unchanged.", "quantifier": "every entry, every list of changes of any length and kind", "why_tests_cant": "Quantifies over all entries and all change lists.", "anchors": ["pkg/ldapentry/ldapentry.go:ApplyModify", "pkg/ldapentry/ldapentry.go:entryReplaceValues"]}
{"id": "C06", "title": "A modify never removes the naming value of an entry", "statement": "After a successful modify, each RDN type/value pair of the entry that was present as an attribute value before is still present afterwards (up to case folding); a change that would remove it is answered with NotAllowedOnRDN.", "quantifier": "every entry with attribute names distinct up to case, every list of changes", "why_tests_cant": "The hazard needs a particular interplay of several changes on the RDN attribute.", "anchors": ["pkg/ldapentry/ldapentry.go:ApplyModify"]}
{"id": "C07", "title": "Replace sets exactly the requested values", "statement": "A modify consisting of one replace leaves the named attribute with exactly the requested values in the requested order, removes the attribute when no values are given, and creates it when it was absent.", "quantifier": "every entry with attribute names distinct up to case, every attribute type and value list that the RDN rule admits", "why_tests_cant": "All entries and value lists.", "anchors": ["pkg/ldapentry/ldapentry.go:ApplyModify", "pkg/ldapentry/ldapentry.go:entryReplaceValues"]}
{"id": "C08", "title": "Add keeps existing values and adds the missing ones", "statement": "A modify consisting of one add keeps every existing value of the attribute in its position, appends exactly the requested values not already present (case-insensitively), and adds no other value.", "quantifier": "every entry with attribute names distinct up to case, every attribute type and value list", "why_tests_cant": "All entries and value lists.", "anchors": ["pkg/ldapentry/ldapentry.go:entryApplyModAdd", "pkg/ldapentry/ldapentry.go:ApplyModify"]}
{"id": "C09", "title": "Delete removes exactly the requested values", "statement": "A modify consisting of one delete keeps exactly those values of the attribute that equal none of the requested values (case-insensitively), in order; with no values listed, or when no value remains, the attribute disappears.", "quantifier": "every entry with attribute names distinct up to case, every attribute type and value list that the RDN rule admits", "why_tests_cant": "All entries and value lists.", "anchors": ["pkg/ldapentry/ldapentry.go:entryApplyModDelete", "pkg/ldapentry/ldapentry.go:ApplyModify"]}
{"id": "C10", "title": "Changes of one modify apply one after the other", "statement": "A modify with several changes has the effect of applying its changes one at a time in the listed order. This holds for every change list in which no delete names an attribute that an earlier change of the same request already touched; it is false otherwise (a delete recomputes from the entry as it was before the request, resurrecting deleted values and losing added ones).", "quantifier": "every entry and every change list satisfying the side condition; existence of a counterexample without it", "why_tests_cant": "Needs reasoning about arbitrary-length change sequences.", "anchors": ["pkg/ldapentry/ldapentry.go:ApplyModify"]}
{"id": "C11", "title": "Add requests become the entry the client sent", "statement": "The entry created from an add request has the requested DN and, for every requested attribute type, the requested values, no attribute being invented; if a type is listed twice the last list wins and the earlier values are lost.", "quantifier": "every add request", "why_tests_cant": "All requests; duplicates are an adversarial input.", "anchors": ["pkg/ldapentry/ldapentry.go:EntryFromAddRequest"]}
{"id": "C12", "title": "Database indexes stay consistent in every history", "statement": "After any sequence of add, delete, modify, rename and password operations, with any of them failing or being interrupted at any point, the name index, the entry store and the child lists describe one and the same forest: every name resolves to exactly one stored entry, every stored entry is reachable by exactly one name, every child list contains exactly the direct children once each, and no list mentions a missing entry.", "quantifier": "every finite history of operations with descriptor attribute types, every I/O-failure and crash schedule, starting from an empty database", "why_tests_cant": "Histories are unbounded; the invariant relates three buckets updated in several steps.", "anchors": ["pkg/ldbbolt/ldbbolt.go:EntryPut", "pkg/ldbbolt/ldbbolt.go:EntryDelete", "pkg/ldbbolt/ldbbolt.go:EntryModify", "pkg/ldbbolt/ldbbolt.go:EntryModifyDN", "pkg/ldbbolt/ldbbolt.go:UpdatePassword", "pkg/ldbbolt/ldbbolt.go:addID2Children"]}
{"id": "C13", "title": "The database implements an abstract directory", "statement": "Every operation on the database returns the result and has the effect of the corresponding operation on a plain finite map from names to entries (add fails iff the name exists, lies outside the base or lacks a parent; delete fails iff absent or not a leaf or a root; rename fails iff target exists, source absent or not a leaf or the RDN rules forbid it).", "quantifier": "every reachable database state and every operation with descriptor attribute types", "why_tests_cant": "A refinement statement over all states and operations.", "anchors": ["pkg/ldbbolt/ldbbolt.go:EntryPut", "pkg/ldbbolt/ldbbolt.go:EntryDelete", "pkg/ldbbolt/ldbbolt.go:EntryModify", "pkg/ldbbolt/ldbbolt.go:EntryModifyDN"]}
{"id": "C14", "title": "Operations are all-or-nothing under errors and crashes", "statement": "If an add, delete, modify, rename or password change reports an error, panics, or is cut short by a crash before commit, the database is exactly as before; if it reports success, the complete effect is in place.", "quantifier": "every database state (even a corrupt one), every operation, every write of the operation failing, every crash point", "why_tests_cant": "The failure points multiply with every write of every operation.", "anchors": ["pkg/ldbbolt/ldbbolt.go:EntryPut", "pkg/ldbbolt/ldbbolt.go:EntryDelete", "pkg/ldbbolt/ldbbolt.go:EntryModifyDN", "pkg/ldbbolt/ldbbolt.go:UpdatePassword"]}
{"id": "C15", "title": "Entry identifiers are never reused", "statement": "No two entries ever created, even after deletions, renames and failed adds, are stored under the same internal identifier, identifiers survive their 8-byte encoding, and a child list of any length decodes to the identifiers that were appended to it.", "quantifier": "every history of fewer than 2^64 successful adds; every 64-bit identifier; every list of identifiers", "why_tests_cant": "Quantifies over histories and the full 64-bit range.", "anchors": ["pkg/ldbbolt/ldbbolt.go:EntryPut", "pkg/ldbbolt/ldbbolt.go:idToBytes", "pkg/ldbbolt/ldbbolt.go:getChildrenIDs"]}
{"id": "C16", "title": "Base search returns exactly the named entry", "statement": "A base-object lookup returns the one stored entry with that name, or nothing when there is none.", "quantifier": "every reachable state and every DN", "why_tests_cant": "All states and names.", "anchors": ["pkg/ldbbolt/ldbbolt.go:Search", "pkg/ldbbolt/ldbbolt.go:getIDByDN"]}
{"id": "C17", "title": "One-level search returns exactly the children", "statement": "A one-level search returns each direct child of the base entry exactly once and nothing else.", "quantifier": "every reachable state and every DN with descriptor types", "why_tests_cant": "All states.", "anchors": ["pkg/ldbbolt/ldbbolt.go:Search", "pkg/ldbbolt/ldbbolt.go:getChildrenIDs"]}
{"id": "C18", "title": "Subtree search returns exactly the subtree and terminates", "statement": "A subtree search terminates and returns the base entry and each of its descendants exactly once and nothing else.", "quantifier": "every reachable state and every DN with descriptor types", "why_tests_cant": "Recursion over arbitrary trees; termination depends on the absence of cycles in every reachable state.", "anchors": ["pkg/ldbbolt/ldbbolt.go:Search", "pkg/ldbbolt/ldbbolt.go:getSubtreeIDs"]}
{"id": "C19", "title": "Names are unique", "statement": "At no time do two stored entries have equal normalised names; adding an existing name (in any capitalisation) is rejected with EntryAlreadyExists and changes nothing.", "quantifier": "every reachable state, every add", "why_tests_cant": "All histories.", "anchors": ["pkg/ldbbolt/ldbbolt.go:EntryPut"]}
{"id": "C20", "title": "Every entry has its parent", "statement": "In every reachable state each stored entry is either a root (its name differs from the configured base only in the first RDN) or its parent entry is stored as well.", "quantifier": "every history", "why_tests_cant": "All histories; a missed check in any operation breaks it.", "anchors": ["pkg/ldbbolt/ldbbolt.go:EntryPut", "pkg/ldbbolt/ldbbolt.go:EntryDelete", "pkg/ldbbolt/ldbbolt.go:addID2Children"]}
{"id": "C21", "title": "All entries lie below the configured base", "statement": "As long as the base entry itself is not renamed, every stored entry is the base or a descendant of it RDN-wise, although the code only compares text suffixes. Renaming a childless base entry succeeds and breaks this.", "quantifier": "every history without a rename of the base entry; existence of a history with one", "why_tests_cant": "All histories.", "anchors": ["pkg/ldbbolt/ldbbolt.go:EntryPut", "pkg/ldbbolt/ldbbolt.go:EntryModifyDN"]}
{"id": "C22", "title": "Delete removes one leaf and nothing else", "statement": "A successful delete removes exactly the named entry, which had no children; every other entry stays unchanged; entries with children and root entries are never deleted.", "quantifier": "every reachable state and every DN with descriptor types", "why_tests_cant": "All states.", "anchors": ["pkg/ldbbolt/ldbbolt.go:EntryDelete"]}
{"id": "C23", "title": "Rename moves one leaf and nothing else", "statement": "A successful rename makes the entry available under the new name only, keeps it under the same parent, leaves every other entry unchanged, and the renamed entry carries the values of its new RDN. If the types in the old RDN are distinct, its values are exactly those it had, without those of the old RDN if they are to be deleted, and those of the new RDN; attributes of other types stay as they are. If the old RDN has two values of one type, all but the last stay although they are to be deleted.", "quantifier": "every reachable state and every rename request with descriptor types", "why_tests_cant": "All states and requests.", "anchors": ["pkg/ldbbolt/ldbbolt.go:EntryModifyDN"]}
{"id": "C24", "title": "Modify and password change affect only the addressed entry", "statement": "A successful modify or password change replaces the one entry with the addressed name by the modified entry, keeps its name and position, and leaves every other entry, name and child list unchanged.", "quantifier": "every reachable state and every request", "why_tests_cant": "All states.", "anchors": ["pkg/ldbbolt/ldbbolt.go:EntryModify", "pkg/ldbbolt/ldbbolt.go:entryModifyWithTxn", "pkg/ldbbolt/ldbbolt.go:UpdatePassword"]}
{"id": "C25", "title": "A password change needs the right old password when one is given", "statement": "If a password change request carries an old password, it succeeds only if that password validates against the stored one; on success the entry's userPassword is exactly the new value and all other attributes are unchanged.", "quantifier": "every reachable state, request and password hash function", "why_tests_cant": "Depends on the hash oracle and on all states.", "anchors": ["pkg/ldbbolt/ldbbolt.go:UpdatePassword"]}
{"id": "C26", "title": "Added entries can be found until removed", "statement": "After a successful add, a lookup under any spelling of the DN that normalises to the same name returns exactly that entry as long as no later operation addresses that name.", "quantifier": "every history between add and lookup that does not successfully address the name", "why_tests_cant": "Histories are unbounded.", "anchors": ["pkg/ldbbolt/ldbbolt.go:EntryPut", "pkg/ldbbolt/ldbbolt.go:Search"]}
{"id": "C27", "title": "Exporting and loading reproduces the directory", "statement": "Loading the export of a database into an empty database with the same base succeeds for every entry and yields a directory with the same names and entries.", "quantifier": "every reachable database state without a renamed base", "why_tests_cant": "The export order must put parents first for every possible tree.", "anchors": ["cmd/idmd/boltdb/export/export.go", "cmd/idmd/boltdb/load/load.go", "pkg/ldbbolt/ldbbolt.go:Search", "pkg/ldbbolt/ldbbolt.go:EntryPut"]}
{"id": "C28", "title": "Concurrent operations serialise", "statement": "When any number of clients run database operations concurrently, the committed state is that of running the successful write operations one at a time in commit order, and each search answers from one single committed state that was current at some moment during the search.", "quantifier": "every interleaving of any number of readers and writers", "why_tests_cant": "Schedules are unbounded.", "anchors": ["pkg/ldbbolt/ldbbolt.go:Search", "go.etcd.io/bbolt View/Update"]}
{"id": "C29", "title": "A hashed password validates and only it does", "statement": "A password hashed for storage validates against its hash; a wrong password does not; a clear-text stored password validates exactly the identical password, unless the stored text begins with a brace expression, in which case even the right password may be rejected.", "quantifier": "every password, every hash function satisfying the verify law", "why_tests_cant": "Passwords are unbounded byte strings.", "anchors": ["pkg/ldappassword/ldappassword.go:Hash", "pkg/ldappassword/ldappassword.go:Validate"]}
{"id": "C30", "title": "Password validation is never fail-open", "statement": "Validation reports success only if the stored value is in clear text and equal to the password, or the scheme-specific hash check (ARGON2, CRYPT, SSHA) holds; unknown schemes, undecodable hashes and library errors never validate.", "quantifier": "every password, stored value and behaviour of the hash libraries", "why_tests_cant": "Stored values are arbitrary bytes.", "anchors": ["pkg/ldappassword/ldappassword.go:Validate"]}
{"id": "C31", "title": "Malformed stored passwords crash validation", "statement": "Password validation panics exactly for: an empty stored value, a CRYPT hash shorter than two characters, and an SSHA hash that decodes to fewer than four bytes; for all others it returns normally.", "quantifier": "every password and stored value", "why_tests_cant": "Exact characterisation over all byte strings.", "anchors": ["pkg/ldappassword/ldappassword.go:Validate"]}
{"id": "C32", "title": "Generated passwords have the requested length and alphabet", "statement": "A generated password has exactly the requested length, uses only the 74 allowed characters, and the map from random draws to passwords is one-to-one, so no password is favoured.", "quantifier": "every length and every sequence of random draws", "why_tests_cant": "Probabilistic property; all draws.", "anchors": ["pkg/ldappassword/ldappassword.go:GenerateRandomPassword"]}
{"id": "C33", "title": "Bind succeeds only with the right credentials", "statement": "A bind on the database backend succeeds only if (a) DN and password are empty and anonymous bind is enabled, or (b) the password is non-empty and validates against the stored userPassword of the existing entry with that name. In particular a DN with an empty password never binds.", "quantifier": "every bind packet, every reachable state, every configuration", "why_tests_cant": "All packets and states; includes malformed packets recovered from panics.", "anchors": ["pkg/ldapserver/bind.go:HandleBindRequest", "server/handler/boltdb/handler.go:Bind", "server/handler/boltdb/handler.go:validatePassword"]}
{"id": "C34", "title": "Anonymous connections never change the directory", "statement": "No sequence of requests, well-formed or not, on connections that have not bound to a non-empty DN changes the stored directory.", "quantifier": "every sequence of packets on any number of connections", "why_tests_cant": "Packet sequences are unbounded and adversarial.", "anchors": ["pkg/ldapserver/server.go:handleConnection", "pkg/ldapserver/add.go:HandleAddRequest", "pkg/ldapserver/modify.go:HandleModifyRequest", "pkg/ldapserver/delete.go:HandleDeleteRequest", "pkg/ldapserver/modifydn.go:HandleModifyDNRequest", "pkg/ldapserver/pwmodifyexop.go:HandlePasswordModifyExOp"]}
{"id": "C35", "title": "Only the administrator can change the directory, except for own passwords", "statement": "Whenever a request changes the stored directory, then either the connection had earlier bound successfully as the configured administrator with a valid non-empty password, or the request is a password change by a bound user and alters nothing but the userPassword attribute of that user's own entry.", "quantifier": "every interleaving of packets on any number of connections, every configuration with an administrator DN below a descriptor-typed base", "why_tests_cant": "A history property over adversarial packets on concurrent connections.", "anchors": ["server/handler/boltdb/handler.go:writeAllowed", "server/handler/boltdb/handler.go:ModifyPasswordExop", "pkg/ldapserver/server.go:handleConnection"]}
{"id": "C36", "title": "One final response per request, in order, with the same message ID", "statement": "For every request the server handles on a connection without dropping it, it sends exactly one final response carrying the request's message ID and the response type that belongs to the request; search entries precede the search's final response and carry the same ID.", "quantifier": "every sequence of packets", "why_tests_cant": "Unbounded packet sequences.", "anchors": ["pkg/ldapserver/server.go:handleConnection", "pkg/ldapserver/search.go:HandleSearchRequest"]}
{"id": "C37", "title": "Which requests can crash the server", "statement": "A single request terminates the whole server process only in the listed cases (empty DN in add/delete/rename, malformed change list in modify, password change denied without message, old-password check against a malformed stored hash, substring filter without substrings, control the library decoder panics on); every other packet is answered or drops just that connection, and each listed case does crash.", "quantifier": "every packet, every connection state", "why_tests_cant": "All byte-level packets; crash freedom is a universal statement.", "anchors": ["pkg/ldapserver/server.go:handleConnection", "pkg/ldapserver/modify.go:parseModList", "pkg/ldapserver/extended.go:HandleExtendedRequest", "pkg/ldbbolt/ldbbolt.go:EntryPut", "pkg/ldapserver/filter.go:ServerApplyFilter"]}
{"id": "C38", "title": "A failed bind must not leave the old identity in force", "statement": "RFC 4511 requires a connection to be anonymous after a failed bind. The server keeps the previous identity: a client that was bound as administrator can still write after a failed re-bind.", "quantifier": "existence of a packet history", "why_tests_cant": "Needs a constructed history and the comparison with the RFC.", "anchors": ["pkg/ldapserver/server.go:handleConnection"]}
{"id": "C39", "title": "Filter evaluation follows boolean logic", "statement": "For every filter built from equality, presence, single-component substrings, and, or, not, evaluating it on an entry gives the truth value of the boolean formula (case-insensitively); a substring filter with several components is judged by its first component only.", "quantifier": "every filter of any depth and width, every entry", "why_tests_cant": "Filters are recursive data of unbounded size.", "anchors": ["pkg/ldapserver/filter.go:ServerApplyFilter"]}
{"id": "C40", "title": "Size limits are honoured exactly", "statement": "With a positive size limit N a search on the database backend returns the first N matching entries, and reports SizeLimitExceeded exactly when more than N match; without a limit it returns all matching entries.", "quantifier": "every entry list, filter and limit", "why_tests_cant": "All result sizes.", "anchors": ["pkg/ldapserver/search.go:HandleSearchRequest"]}
{"id": "C41", "title": "Only the requested attributes are returned", "statement": "A search result entry carries exactly those attributes of the stored entry that were requested (case-insensitively, '*' meaning all), with unchanged values and order; an empty request list means all. An attribute requested twice is returned twice.", "quantifier": "every entry and request list", "why_tests_cant": "All entries and lists.", "anchors": ["pkg/ldapserver/search.go:filterAttributes", "pkg/ldapserver/filter.go:ServerFilterAttributes"]}
{"id": "C42", "title": "The scope check agrees with the scope", "statement": "For DNs without escaped commas and single-valued first RDN the one-level scope check accepts exactly the direct children and the base check exactly the entry itself; an escaped comma in the first RDN makes a one-level search fail or lose the entry.", "quantifier": "every base DN and entry DN", "why_tests_cant": "All pairs of DNs.", "anchors": ["pkg/ldapserver/filter.go:ServerFilterScope"]}
{"id": "C43", "title": "A search returns exactly the matching entries in scope", "statement": "A search on the database backend with a supported filter, an existing base and no size limit returns precisely the stored entries that lie in the requested scope and satisfy the filter, each once: for subtree scope with any names, for base and one-level scope when the names concerned are ASCII and, for one-level scope, hold no escape or semicolon before the first comma. Outside these conditions an entry can be lost (two foldings that differ) or the whole search can fail (an escaped comma). A missing base gives no entries.", "quantifier": "every reachable state, base, scope and supported filter", "why_tests_cant": "Composition over all states and filters.", "anchors": ["pkg/ldapserver/search.go:HandleSearchRequest", "pkg/ldbbolt/ldbbolt.go:Search", "pkg/ldapserver/filter.go:ServerApplyFilter", "pkg/ldapserver/filter.go:ServerFilterScope"]}
{"id": "C44", "title": "Handlers are routed to the most specific suffix", "statement": "A request is dispatched to a registered suffix of the request DN with the largest number of DN components; the choice is independent of registration order whenever no two matching suffixes have the same number of components, and depends on it otherwise.", "quantifier": "every DN and every set and order of registered suffixes", "why_tests_cant": "Go map iteration order is random, so a test sees only some orders.", "anchors": ["pkg/ldapserver/server.go:routeFunc"]}
{"id": "C45", "title": "The LDIF backend never discloses passwords", "statement": "No search on the LDIF backend, with any filter, attribute list, paging or size limit, returns a userPassword attribute.", "quantifier": "every LDIF content and every search request", "why_tests_cant": "All contents and requests.", "anchors": ["server/handler/ldif/ldif.go:treeFromLDIF", "server/handler/ldif/handler.go:Search"]}
{"id": "C46", "title": "The database backend discloses password hashes to anyone", "statement": "On the database backend an unauthenticated search returns stored entries including userPassword values; the LDIF guarantee C45 does not carry over, and anonymous access is not limited to local clients.", "quantifier": "existence of a state and an anonymous search", "why_tests_cant": "Needs comparison of two backends.", "anchors": ["server/handler/boltdb/handler.go:Search", "server/handler/boltdb/handler.go:Bind"]}
{"id": "C47", "title": "The LDIF backend is read-only", "statement": "Add, delete, modify, rename and password-change requests on the LDIF backend are always refused and never change the served data; only a reload does.", "quantifier": "every request and every served data set", "why_tests_cant": "All requests.", "anchors": ["server/handler/ldif/handler.go:Add", "server/handler/ldif/handler.go:Modify", "server/handler/ldif/middleware.go:Add"]}
{"id": "C48", "title": "LDIF bind succeeds only with the right credentials", "statement": "A bind on the LDIF backend (with or without the config overlay) succeeds only for an anonymous loopback client when that is enabled, or for an existing entry under the base whose first userPassword validates the given non-empty password; entries of the overlay take precedence.", "quantifier": "every bind and every data set", "why_tests_cant": "All contents and requests.", "anchors": ["server/handler/ldif/handler.go:Bind", "server/handler/ldif/middleware.go:Bind", "server/handler/ldif/handler.go:validateBindDN"]}
{"id": "C49", "title": "LDIF index lookup misses nothing for conjunctive filters", "statement": "For filters that are equality leaves or conjunctions containing indexed equality or presence leaves, the indexed search finds every entry the full scan would find. For disjunctions with a negated or un-indexable branch and for mixed-case substrings it misses entries.", "quantifier": "every data set and every filter of the stated shapes; existence of misses otherwise", "why_tests_cant": "All data sets and filters.", "anchors": ["server/handler/ldif/filter.go:parseFilterToIndexFilter", "server/handler/ldif/index.go", "server/handler/ldif/handler.go:searchEntriesPump"]}
{"id": "C50", "title": "Paged search partitions the result", "statement": "Without timeouts and reloads of the cookie, the pages of a paged LDIF search concatenated are exactly the unpaged result, each entry once and in order, for every page size; a request after an exactly full last page is refused, and a pump timeout silently truncates the result.", "quantifier": "every result list, page size and schedule of pump and client steps", "why_tests_cant": "Concurrent pump goroutine and client; unbounded schedules.", "anchors": ["server/handler/ldif/handler.go:Search", "server/handler/ldif/handler.go:searchEntriesPump"]}
{"id": "C51", "title": "Reload switches data sets atomically", "statement": "Each LDIF search answers from exactly one data set that was current when it started, regardless of reloads during the search; a failed reload leaves the served data unchanged.", "quantifier": "every interleaving of searches and reloads", "why_tests_cant": "Schedules are unbounded.", "anchors": ["server/handler/ldif/handler.go:open", "server/handler/ldif/handler.go:Reload", "server/handler/ldif/handler.go:load"]}
{"id": "C52", "title": "A reload signal is never lost", "statement": "After a SIGHUP has been taken from the signal queue, a reload begins later that reads the data as of after the signal, however many signals and reloads overlap.", "quantifier": "every interleaving of signals and reload loop", "why_tests_cant": "Schedules are unbounded.", "anchors": ["server/server.go:Serve"]}
{"id": "C53", "title": "Duplicate DNs in LDIF are rejected", "statement": "Building the served tree from LDIF succeeds exactly when no two records have the same lower-cased DN, and then every record can be looked up.", "quantifier": "every record list", "why_tests_cant": "All inputs.", "anchors": ["server/handler/ldif/ldif.go:treeFromLDIF"]}
{"id": "C54", "title": "Connection statistics are exact", "statement": "For every interleaving of connection opens, closes and counted requests other than add, the counters equal the numbers of events, the current-connection counter equals opens minus closes, and every counting call completes; a counted add blocks all later counting forever.", "quantifier": "every interleaving of any number of connections", "why_tests_cant": "Schedules are unbounded; the deadlock needs the metrics option.", "anchors": ["pkg/ldapserver/stats.go"]}
{"id": "C55", "title": "Auto-assigned user numbers do not collide", "statement": "The user numbers in generated LDIF are pairwise different when the explicit numbers are non-zero, pairwise different and small enough for the counter not to wrap; explicit numbers are used as they are and automatic ones lie above all explicit user and group numbers and above 1000. An explicit zero takes a number from a separate counter starting at 1001 and can collide, as can a wrapped counter or equal explicit numbers.", "quantifier": "every input file", "why_tests_cant": "All inputs.", "anchors": ["cmd/idmd/gen/newusers/newusers.go:parsePasswdFile", "cmd/idmd/gen/newusers/output_ldif.go", "server/handler/ldif/template.go:TemplateFuncs"]}
{"id": "C56", "title": "Template file inclusion stays inside its directory", "statement": "The file-inclusion template function opens only paths that, after removal of '.' and '..' components, lie strictly inside the template base directory (symbolic links aside), except for the root directory itself when that is the base; every path strictly inside can be named.", "quantifier": "every file name and base path", "why_tests_cant": "All path strings.", "anchors": ["server/handler/ldif/template.go:TemplateFuncs formatAsFileBase64"]}
{"id": "C57", "title": "Template file inclusion encodes the whole file", "statement": "The text inserted for an included file decodes to the file's bytes when its size is a multiple of three; otherwise the last one or two bytes are lost because the encoder is not closed.", "quantifier": "every file content up to the limit", "why_tests_cant": "All contents.", "anchors": ["server/handler/ldif/template.go:TemplateFuncs formatAsFileBase64"]}
{"id": "C58", "title": "LDIF search results match base, filter and scope", "statement": "Every entry returned by an LDIF search comes from a record that satisfies the filter and the scope check and whose lower-cased DN ends, as text, in the requested base, which itself ends in the configured base. The comparison is textual: a record that is not in the subtree of the base can be returned.", "quantifier": "every LDIF content and search request; existence of an outside entry", "why_tests_cant": "All contents and requests.", "anchors": ["server/handler/ldif/handler.go:Search", "server/handler/ldif/handler.go:searchEntriesPump"]}
{"id": "C59", "title": "LDIF size limits truncate silently", "statement": "A positive size limit n on an LDIF search returns the first max(1, n mod 2^32) entries of the unlimited result with the code Success; SizeLimitExceeded is never reported.", "quantifier": "every LDIF content, search request and limit", "why_tests_cant": "All contents and limits.", "anchors": ["server/handler/ldif/handler.go:Search"]}
{"id": "C60", "title": "Abandoning a paged LDIF search hangs the connection", "statement": "A search with page size 0 and a known cookie, which is meant to abandon a paged search, waits on a nil channel: no schedule of any steps ever answers that connection again, and nothing sent on it afterwards is read.", "quantifier": "every state, request and schedule", "why_tests_cant": "That no schedule answers cannot be observed in finite time.", "anchors": ["server/handler/ldif/handler.go:Search"]}
{"id": "C61", "title": "The size limit of a paged LDIF search applies per page", "statement": "With a page size below the size limit the pages of a paged search go on to the end of the unlimited result; the limit is not applied to their total.", "quantifier": "every LDIF content, request, page size and schedule", "why_tests_cant": "All contents and schedules.", "anchors": ["server/handler/ldif/handler.go:Search"]}
{"id": "C62", "title": "Paging cookies are shared between connections", "statement": "Any connection whose identity passes the search checks and that presents a live cookie reads from the pump of the search the cookie was issued for; the entries it takes are missing from the pages of the connection that started the search.", "quantifier": "every state, connection and request", "why_tests_cant": "Needs two clients interleaved at entry granularity.", "anchors": ["server/handler/ldif/handler.go:Search"]}
{"id": "C63", "title": "The reported connection maximum is always zero", "statement": "The server keeps the largest number of simultaneously open connections, for every schedule in which closes never outnumber opens, but every copy handed to the metrics endpoint reports that maximum as zero, while all other counters are copied as they are.", "quantifier": "every interleaving of any number of connections", "why_tests_cant": "Schedules are unbounded; the maximum depends on how openings and closings interleave.", "anchors": ["pkg/ldapserver/stats.go:Clone", "server/metrics.go:Collect"]}
{"id": "C64", "title": "An LDIF folder loads as a whole, in name order", "statement": "Loading a folder gives the records of its *.ldif files in the order of their names, whatever the order of the listing and whatever other files there are; if one file cannot be opened or processed nothing of the folder is loaded and the old data stays in service.", "quantifier": "every folder listing and file content", "why_tests_cant": "All listings, contents and failures.", "anchors": ["server/handler/ldif/ldif.go:parseLDIFDirectory", "server/handler/ldif/handler.go:open"]}
{"id": "C65", "title": "Template processing of LDIF text keeps content lines", "statement": "With templates on, exactly the comment lines are removed before the template engine runs, and without folded comments the remaining content is unchanged; a line of 65536 bytes or more silently ends the file; the continuation lines of a folded comment become part of the preceding value.", "quantifier": "every LDIF text", "why_tests_cant": "All texts, including lines longer than any test file.", "anchors": ["server/handler/ldif/ldif.go:parseLDIFTemplate"]}
{"id": "C66", "title": "Template counters give distinct numbers", "statement": "The numbers given by AutoIncrement in one template run are consecutive and distinct as long as no call sets the counter and it does not wrap; it starts at 1000 or AutoIncrementMin, and a value of another type there is a panic; options override the template map and defaults.", "quantifier": "every sequence of calls and all variables", "why_tests_cant": "Unbounded sequences.", "anchors": ["server/handler/ldif/template.go:TemplateFuncs"]}
{"id": "C67", "title": "Which user files newusers accepts", "statement": "A file is accepted exactly if every line that is neither blank nor a comment has at least seven fields and an empty or strong enough password; a line of five or six fields after good lines is a panic; nothing is printed unless all lines and numbers are good; a line of 65536 bytes or more silently ends the file.", "quantifier": "every input file", "why_tests_cant": "All files.", "anchors": ["cmd/idmd/gen/newusers/newusers.go:parsePasswdFile", "cmd/idmd/gen/newusers/output_ldif.go:outputLDIF"]}
{"id": "C68", "title": "Generated passwords validate exactly the given password", "statement": "For a user with a password the printed value validates that password and no other; a user without a password gets the user name in clear text as password.", "quantifier": "every input file and every candidate password", "why_tests_cant": "All passwords.", "anchors": ["cmd/idmd/gen/newusers/output_ldif.go:outputLDIF", "pkg/ldappassword/ldappassword.go:Hash"]}
{"id": "C69", "title": "One entry per user in generated LDIF", "statement": "Whatever the fields contain, the printed LDIF has exactly one dn line and one uidNumber line and at most one userPassword line for each user; a name that needs no escaping puts the entry directly below the users, but names are not escaped, so a name with a comma puts the entry elsewhere.", "quantifier": "every input file", "why_tests_cant": "All field contents.", "anchors": ["cmd/idmd/gen/newusers/newusers.go:outputTemplate", "cmd/idmd/gen/newusers/output_ldif.go:outputLDIF"]}
{"id": "C70", "title": "Requests are read as they were sent", "statement": "Each request parser (add, delete, modify, modifyDN, search, password modification) accepts exactly the packets that state a request in the form of RFC 4511 and RFC 3062, up to fields it does not look at, and returns exactly that request: names, attribute types, values, their order, the operations and all flags. The packets a client builds for a request are accepted. A rename carrying a new superior is refused.", "quantifier": "every packet tree and every request", "why_tests_cant": "All packets and all requests, including every malformed one.", "anchors": ["pkg/ldapserver/add.go:parseAddRequest", "pkg/ldapserver/modify.go:parseModifyRequest", "pkg/ldapserver/modifydn.go:parseModifyDNRequest", "pkg/ldapserver/delete.go:parseDeleteRequest", "pkg/ldapserver/search.go:parseSearchRequest", "pkg/ldapserver/pwmodifyexop.go:parsePasswordModifyExop"]}
{"id": "C71", "title": "Write requests take effect exactly as answered", "statement": "An add, delete, modify or rename message of the administrator changes the directory exactly as the abstract operation does and is answered with success, or leaves it unchanged and is answered with the code of the error; from anyone else it is refused with insufficientAccessRights and no effect; malformed ones are refused without effect or crash the server. With I/O errors and crashes, an answer of success still means the change was made and any other answer that nothing was.", "quantifier": "every reachable database, message and environment", "why_tests_cant": "All messages on all databases under all faults.", "anchors": ["pkg/ldapserver/server.go:handleConnection", "server/handler/boltdb/handler.go:Add", "server/handler/boltdb/handler.go:Modify"]}
{"id": "C72", "title": "Server states are database histories", "statement": "For any number of connections sending any packets, the database of the server is the result of a history of the operations the messages ask for, at most one per message and in their order; hence all database invariants hold in every state of the server. A server started on an empty database never stores anything.", "quantifier": "every sequence of events on any number of connections", "why_tests_cant": "All interleavings of all messages.", "anchors": ["pkg/ldapserver/server.go:handleConnection", "server/handler/boltdb/handler.go:boltdbHandler"]}
{"id": "C73", "title": "A password change takes effect exactly as answered", "statement": "A password request of a user for themselves, or of the administrator for anyone, stores a hash accepting exactly the requested password and is answered with success, or changes nothing and is answered with an error; after success the user can bind with that password and no other. The value returned for a generated password is not that password. Unauthenticated and malformed requests and unparsable names change nothing.", "quantifier": "every reachable database, password message and candidate password", "why_tests_cant": "All passwords, names and databases.", "anchors": ["pkg/ldapserver/pwmodifyexop.go:HandlePasswordModifyExOp", "pkg/ldapserver/extended.go:HandleExtendedRequest", "server/handler/boltdb/handler.go:ModifyPasswordExop", "pkg/ldbbolt/ldbbolt.go:UpdatePassword"]}
{"id": "C74", "title": "A search message is answered exactly", "statement": "For names where scope checks are exact (C43), a search message is answered by exactly the entries in scope satisfying the filter, each once and reduced to the requested attributes, followed by success, without changing the directory; reading one name yields that entry or nothing; an entry added with success can be read by anyone. With a positive size limit at most so many of them are sent, and the code is sizeLimitExceeded exactly if there are more, whereupon the connection is closed. A base that is missing or cannot be parsed, and an unknown scope, give success without entries; a malformed request or filter operationsError and the end of the connection.", "quantifier": "every reachable database and search message", "why_tests_cant": "All databases, filters and scopes.", "anchors": ["pkg/ldapserver/search.go:HandleSearchRequest", "server/handler/boltdb/handler.go:Search", "pkg/ldbbolt/ldbbolt.go:Search"]}
{"id": "C75", "title": "The password command prints the hash of the chosen secret", "statement": "gen passwd succeeds exactly if a secret was given (by one of the flags, generated, or typed twice alike), it is not blank, strong enough and can be hashed; it then prints the hash, interpreted as a format: unchanged without percent sign, mangled otherwise. With {ARGON2} the printed value accepts the secret and nothing else. More than one of the secret flags is refused. Defects: generated passwords with a percent sign are printed wrong, generated ones in braces cannot be used, an unreadable secret file leads to a prompt, --generate=false generates, the line feed ending a secret file is part of the secret.", "quantifier": "every combination of flags, file content and typed text", "why_tests_cant": "All secrets and flags; the defects show for some random passwords only.", "anchors": ["cmd/idmd/gen/passwd/passwd.go:passwd"]}
{"id": "C76", "title": "The server starts exactly with usable settings", "statement": "A server is created exactly for the handlers ldif and boltdb, with a base that is not empty, base and administrator that parse, a source that can be read and, for ldif, a base spelled like its normal form up to letter case; the frontend filters for the database backend only. The database and its handler use the same base if the last value of the name does not end in a space; otherwise the database silently has an empty base. A flag goes before a non-empty environment variable, that before the built-in value. LDAPS needs certificate and key.", "quantifier": "every configuration and environment", "why_tests_cant": "All names for base and administrator.", "anchors": ["server/server.go:NewServer", "cmd/idmd/serve/serve.go:setDefaults", "cmd/idmd/serve/serve.go:checkTLSConfig", "pkg/ldbbolt/ldbbolt.go:Configure", "server/handler/ldif/handler.go:NewLDIFHandler", "server/handler/boltdb/handler.go:NewBoltDBHandler"]}
{"id": "C77", "title": "Loading an LDIF file adds a first part of it and overwrites nothing", "statement": "boltdb load on any database adds the entries of the file in order up to the first that cannot be added, all of them exactly if it succeeds; every entry that was there stays as it was. A file with an entry that is already there makes it fail (the help text says the database is overwritten). A file that does not parse changes nothing; a base that does not parse is not reported.", "quantifier": "every reachable database and every list of entries", "why_tests_cant": "All databases and files.", "anchors": ["cmd/idmd/boltdb/load/load.go:Load", "pkg/ldbbolt/ldbbolt.go:EntryPut", "pkg/ldbbolt/ldbbolt.go:Configure"]}
{"id": "C78", "title": "Clients read the replies that were meant", "statement": "The bytes written for any sequence of replies are read back by an LDAP client as exactly these replies in order, whatever follows them: message id, operation, result code, entry name, attributes and values, password value and controls; there is no other reading. Every reply written for a request read from a connection carries the request's message id, in range, and one of the response operations.", "quantifier": "every list of replies, every text and following bytes", "why_tests_cant": "All sequences of replies and all contents.", "anchors": ["pkg/ldapserver/server.go:encodeLDAPResponse", "pkg/ldapserver/bind.go:encodeBindResponse", "pkg/ldapserver/search.go:encodeSearchResponse", "pkg/ldapserver/search.go:encodeSearchAttribute", "pkg/ldapserver/search.go:encodeSearchDone", "pkg/ldapserver/extended.go:encodeExtendedResponse"]}
{"id": "C79", "title": "Bytes on a connection are handled as the requests sent", "statement": "A message is recognised in its bytes whatever follows it, and no proper part of it is taken for a message. Requests encoded as in RFC 4511 can be sent, are parsed to the request meant, and are handled from their bytes like from their packet. Messages sent one after the other are handled one after the other with the state and identity of the previous one; bytes that are no message close the connection and change nothing.", "quantifier": "every list of messages, every backend and state", "why_tests_cant": "All byte streams and requests.", "anchors": ["pkg/ldapserver/server.go:handleConnection", "pkg/ldapserver/add.go:parseAddRequest", "pkg/ldapserver/modify.go:parseModifyRequest", "pkg/ldapserver/search.go:parseSearchRequest", "pkg/ldapserver/pwmodifyexop.go:parsePasswordModifyExop"]}
{"id": "C80", "title": "Bind requests are answered by the directory", "statement": "On the database backend a simple bind with a name that can be parsed is answered by success exactly for anonymous access where allowed or the right password of an entry below the base, by operationsError exactly if the stored password makes the comparison panic, and by invalidCredentials otherwise; a name that cannot be parsed gives invalidDNSyntax, a malformed request operationsError, protocolError or inappropriateAuthentication. Success changes the identity of the connection to the normalised name, everything else leaves it. So an entry without a password can be told from a missing one.", "quantifier": "every reachable database, name, password and connection", "why_tests_cant": "All databases, names and stored passwords.", "anchors": ["server/handler/boltdb/handler.go:Bind", "server/handler/boltdb/handler.go:validatePassword", "pkg/ldapserver/bind.go:HandleBindRequest", "pkg/ldapserver/server.go:handleConnection"]}
{"id": "C81", "title": "Names are read by one grammar", "statement": "A text is read as a name exactly if, without blanks around it, it is a sequence of components separated by unescaped commas or semicolons, each a sequence of pairs separated by unescaped plus signs, each a type and a value separated by the first unescaped equals sign; types and values are what is left after removing blanks and escapes. Blank types before a further equals sign are skipped.", "quantifier": "every text", "why_tests_cant": "All texts and escapes.", "anchors": ["pkg/ldapdn/ldapdn.go:ParseNormalize", "pkg/ldapserver/add.go:parseAddRequest"]}
{"id": "C82", "title": "Bind and search messages on the LDIF backend", "statement": "A bind message to the LDIF backend is answered by insufficientAccessRights exactly if the name may not bind, by unwillingToPerform exactly for a permitted name without password, by success exactly for permitted anonymous access or the right password of a record of that name, by operationsError exactly if that record's password is missing or makes the comparison panic, and by invalidCredentials otherwise; an accepted bind for a name that is no DN closes the connection without an answer. With an overlay, names it has are decided there and all other binds passed on. A search is refused for identities that may not bind and for bases outside the directory; otherwise, for filters the index answers completely, the entries sent are exactly the records whose lower-cased name ends in the base, that are in scope and satisfy the filter, without passwords, cut off at the size limit, followed by success.", "quantifier": "every file, name, password, request and connection", "why_tests_cant": "All files and requests; the index only narrows what a look at every record would give.", "anchors": ["server/handler/ldif/handler.go:Bind", "server/handler/ldif/handler.go:Search", "server/handler/ldif/middleware.go:Bind", "server/handler/ldif/middleware.go:Search", "pkg/ldapserver/search.go:HandleSearchRequest", "pkg/ldapserver/server.go:handleConnection"]}
{"id": "C83", "title": "Accepting connections, stopping and the exit code", "statement": "The server goes on until a listener cannot be started, which it always notices and returns as an error, or SIGINT or SIGTERM is delivered, after which it returns none; until then nothing is told to stop, and only SIGHUP causes a reload. Each listener handles the connections it accepts in order and each once, with at most one waiting. Stopping cannot get stuck and takes a bounded number of steps, whatever clients and signals do; a stopped listener handles no more connections. One failing Accept ends the accepting on that listener for good while the server runs on; stopping does not wait for open connections; SIGHUP while stopping ends it at once. The exit code is 64 exactly for a configuration that cannot be started, 1 for missing TLS files and for an error while serving, 0 otherwise.", "quantifier": "every interleaving of listeners, connections, signals, reloads and shutdown", "why_tests_cant": "Schedules are unbounded.", "anchors": ["pkg/ldapserver/server.go:Serve", "pkg/ldapserver/server.go:ListenAndServe", "pkg/ldapserver/server.go:ListenAndServeTLS", "server/server.go:Serve", "cmd/idmd/serve/serve.go:serve", "cmd/idmd/serve/serve.go:CommandServe"]}
{"id": "C84", "title": "The filter evaluated is the filter sent", "statement": "The server turns the filter of a search message into text and that text into the filter it evaluates. For every filter RFC 4511 allows, except for the dnAttributes flag and a matching rule called \"dn\", and whatever octets its values have, this gives the filter that was sent; so a search is answered with exactly the entries satisfying the filter in the message, on both backends. The library's filters are of the form the evaluation expects, so only the listed requests end the process; a substrings filter whose only component is empty is one of them. Filters with the dnAttributes flag or of an unknown kind are refused with operationsError. For attribute descriptions RFC 4512 does not allow the claim fails: one assertion can be read as several.", "quantifier": "every filter, value and search message", "why_tests_cant": "All filters of any depth and values of any octets.", "anchors": ["pkg/ldapserver/search.go:parseSearchRequest", "pkg/ldapserver/search.go:HandleSearchRequest", "pkg/ldapserver/filter.go:CompileFilter", "pkg/ldapserver/filter.go:DecompileFilter", "server/handler/ldif/handler.go:Search"]}
{"id": "C85", "title": "Connections served at the same time are served as if one request at a time", "statement": "On the database backend the steps of any number of connections interleave: reading a packet, beginning and ending a transaction, writing one response. Whatever the interleaving, the database is at every moment what the server makes of the requests taken one after the other in some order; every connection waiting for its next request, or ended, has been sent exactly the answers of that sequential run and is bound as there, and one in the middle of an answer a part of them. The order contains the requests read from each connection in the order sent, each once, except perhaps the one being dealt with, and a request answered before another is sent comes before it. Conversely every sequential run that the process survives is one of the interleavings. So whatever is proved of the sequential server holds. No connection waits for another's client: a request can always be finished by its own connection after at most the end of the one write transaction under way. A request that ends the process takes no effect.", "quantifier": "every number of connections, packets and interleaving, with I/O errors and crashes", "why_tests_cant": "Interleavings are unbounded and rarely reproducible.", "anchors": ["pkg/ldapserver/server.go:serve", "pkg/ldapserver/server.go:handleConnection", "server/handler/boltdb/handler.go", "pkg/ldbbolt/ldbbolt.go"]}
{"id": "C86", "title": "A request goes to the handler registered for the most specific suffix of its name", "statement": "However many handlers are registered for suffixes, a request is served exactly as by a server that has only the handler of the suffix with the most parts among those its name ends with, whatever the order in which the maps are run through; no other handler sees it. If no suffix fits, a bind is refused as invalid credentials, a search finds nothing, and every change and password modification is refused as unwilling to perform. With the single handler that Serve registers, under the empty suffix, the server is the one with that handler alone, and a server without handlers binds nobody and changes nothing. The suffix is compared with the name as written, so another spelling of the same name goes to another handler, and a name that only ends like the suffix without being below it goes to its handler.", "quantifier": "every set of registered handlers, order of the maps, packet and state", "why_tests_cant": "Sets of handlers and names are unbounded; the order of a Go map is random.", "anchors": ["pkg/ldapserver/server.go:NewServer", "pkg/ldapserver/server.go:routeFunc", "pkg/ldapserver/add.go:HandleAddRequest", "pkg/ldapserver/bind.go:HandleBindRequest", "pkg/ldapserver/search.go:HandleSearchRequest", "server/server.go:Serve"]}
{"id": "C87", "title": "The commands run with the settings that the command line and the environment give", "statement": "A command line is accepted exactly if it follows one grammar: long flags with their value joined by an equals sign or in the next argument, switches alone or with a truth value, groups of letters, operands anywhere, two dashes ending the flags. idmd serve then runs with the settings in which every value is the one its own flag was given last, or else that of its own environment variable if that is not empty, or else the built-in one; switches, anonymous binds among them, no environment variable can turn on. It serves exactly if the TLS address has both files, the log level is known and a server can be made of these settings, and otherwise ends with code 0 for help, 1 for a line not accepted or missing TLS files, 64 for the rest. Metrics and profiles are served exactly if their switch is on and they have an address. boltdb load and export run exactly if their required flags are given, on the file, base and input named; gen newusers exactly with one operand and the format ldif; gen passwd without operands, with each flag as given; any other line ends these tools with code 0 exactly if it asks for help, and 1 otherwise. The flags of each command are those listed, and no others. A truth value as a separate argument is not the value of a switch but an operand, which serve ignores: --ldap-allow-local-anonymous false allows anonymous binds.", "quantifier": "every argument list, environment and content of the files", "why_tests_cant": "Argument lists and environments are unbounded.", "anchors": ["cmd/idmd/serve/serve.go:setDefaults", "cmd/idmd/serve/serve.go:CommandServe", "cmd/idmd/serve/serve.go:configure", "cmd/idmd/boltdb/boltdb.go:CommandBoltDB", "cmd/idmd/gen/newusers/newusers.go:CommandNewusers", "cmd/idmd/gen/passwd/passwd.go:CommandPasswd", "cmd/idmd/main.go:main"]}
{"id": "C88", "title": "With metrics enabled one add request by anybody stops the server", "statement": "With metrics enabled the server proper makes only steps it makes without them. When all counting is done, the endpoint shows the exact number of connections taken and open and of bind, unbind and search requests read, whether well-formed or not, modulo 2^64, and zero as the greatest number of connections; a reading that ends shows the counters of one moment. While no add request has been read, counting can always be finished. But an add request is never answered, whoever sends it and whatever it contains; once it is counted, no connection is taken any more, no request read from then on other than extended and compare requests is answered, and no reading of the metrics ends, whatever else happens; and any connection waiting for its next request can bring this about, bound or not.", "quantifier": "every interleaving of any number of connections, listeners and readers of the metrics, every packet", "why_tests_cant": "Schedules and packets are unbounded, and 'for good' is about all continuations.", "anchors": ["server/metrics.go:Collect", "server/metrics.go:NewLDAPServerCollector", "pkg/ldapserver/stats.go:countAdds", "pkg/ldapserver/stats.go:Clone", "pkg/ldapserver/server.go:handleConnection", "pkg/ldapserver/server.go:Serve", "server/server.go:NewServer"]}
{"id": "C89", "title": "Servers, loads and exports of one database file take effect one after the other", "statement": "However servers, loads and exports of one database file are started, interleaved and killed, the file holds what they make of it one after the other in the order in which they got it: a server what its requests make, a load all of its entries or, killed or failing, a first part of them, an export nothing. An export prints the complete content left by those before it. Nobody but several exports have the file at the same time. While a server or a load has it no other process gets on, however long that takes: a file being served cannot be exported, and a second server on it neither serves nor reports an error. Once nobody has it each process waiting can get it, and a load or export that has it can come to its end by itself. A file that began empty and was only used with one base always holds a consistent database that is a directory.", "quantifier": "every number of processes and every interleaving of their steps and kills, every content", "why_tests_cant": "Schedules are unbounded, and 'waits however long' is about all continuations.", "anchors": ["pkg/ldbbolt/ldbbolt.go:Configure", "server/handler/boltdb/handler.go:setup", "cmd/idmd/boltdb/load/load.go:Load", "cmd/idmd/boltdb/export/export.go:Export"]}
{"id": "C90", "title": "Connections to the LDIF backend served at the same time do not disturb each other, not even by reloads", "statement": "However the connections of the LDIF backend, its pumps and its reloads are interleaved, each connection whose requests use no paging gets exactly the messages it would get if it were served alone and its requests were carried out as a whole, one after the other, each on the data of the last successful reload before it; this moment lies between the reading of the request and its answer, so that a request read after a reload is answered from its data, and no answer mixes two data sets. A request can always be finished by steps of its own connection and pump. A client that goes on with the cookie of a paged search gets for each request a page of the size asked for under its message number; the pages are the result of the unpaged search in the data of the first request, reloads notwithstanding, and the end is told exactly when everything was sent. Which messages start a search, and which control counts, is characterised exactly. The process ends only by a request that would end it alone; conversely, every order of requests without paging and reloads in which it survives can happen.", "quantifier": "every number of connections, every packet, every interleaving of connections, pumps and reloads", "why_tests_cant": "Interleavings, packets and data sets are unbounded.", "anchors": ["pkg/ldapserver/server.go:handleConnection", "pkg/ldapserver/search.go:HandleSearchRequest", "pkg/ldapserver/search.go:encodeSearchDone", "server/handler/ldif/handler.go:Search", "server/handler/ldif/handler.go:searchEntriesPump", "server/handler/ldif/handler.go:Reload"]}
{"id": "C91", "title": "A reload reaches the handler that serves, and requests meanwhile see each file at one moment", "statement": "The handler objects that Serve derives from those made at the start serve the data loaded at the start. A reload, with any requests meanwhile, changes what these objects serve exactly as the reload rules say (the middleware's file first, the main file only if that succeeded) and is reported so; the objects made at the start, which no longer serve, keep their data in memory and are never changed. Each request under way during a reload is answered from the middleware's data at one moment and the main data at one moment not before it, both while the request was under way; a request during which nothing is stored is answered from what was served when it was made. Because the two are looked at at different moments, a user moved from the main file to the middleware's file can be refused during a reload although every state before, between and after accepts the bind. Templates in both files include files from the folder of the main source.", "quantifier": "every configuration, every content of the files at every moment, every interleaving of requests and reloads", "why_tests_cant": "File contents, interleavings and numbers of requests are unbounded, and the refused bind needs one particular interleaving.", "anchors": ["server/handler/ldif/handler.go:open", "server/handler/ldif/handler.go:WithContext", "server/handler/ldif/handler.go:Reload", "server/handler/ldif/middleware.go:open", "server/handler/ldif/middleware.go:WithContext", "server/handler/ldif/middleware.go:Reload", "server/handler/ldif/middleware.go:Bind", "server/server.go:Serve"]}
{"id": "C92", "title": "An account is what the messages addressed to it made of it; sessions outlive it", "statement": "On the database backend, whatever happens on any connections, under I/O errors and crashes of transactions, an entry stays what it is as long as the messages asking for an operation on its name leave the database as it is. So after a password change answered with success, a bind as that user, in any spelling and on any connection, succeeds exactly with that password until a later message changes the entry; after a delete answered with success every bind as that user is answered with 49 until an entry of that name is made again; after a rename answered with success the user is known with the same password under the new name only. A connection keeps its identity whatever happens on the others: who was bound when their entry was deleted can take over an account made later under the same name, and a deleted administrator goes on as administrator.", "quantifier": "every history of the database, every sequence of events on any number of connections with any faults, every entry, name, spelling and password", "why_tests_cant": "The events between setting a password and using it, and the connections they come from, are unbounded; a test sees one such sequence.", "anchors": ["pkg/ldapserver/server.go:handleConnection", "pkg/ldapserver/modify.go:HandleModifyRequest", "server/handler/boltdb/handler.go:Bind", "server/handler/boltdb/handler.go:ModifyPasswordExop", "pkg/ldbbolt/ldbbolt.go:UpdatePassword", "pkg/ldbbolt/ldbbolt.go:EntryModifyDN"]}
{"id": "C93", "title": "Users printed by newusers can log in with the passwords of the user file once the LDIF backend serves the output", "statement": "The output of gen newusers, taken as a file or one of the files of a folder of the LDIF backend, is read without error and gives one record for each user, whose DN is uid=NAME,ou=Users,ou=COMPANY,BASE and whose values are those of the user file; it is served exactly if no two names are the same up to case. A bind message for that DN in any case is then answered with success exactly if the password is the one of the user file or, for a user without one, the name; if nothing else is served, nobody else can log in. The output is a template and nothing for the database backend: its names are no DNs, and the load command panics on the first of them and loads nothing.", "quantifier": "every user file, any number of users whose names, full names and addresses need no escaping, every company, base DN and mail domain, every folder of other files, every bind name and password", "why_tests_cant": "The claim goes through five programs (generator, template engine, LDIF reader, index, bind) for unbounded files; tests exercise each with a few fixed inputs.", "anchors": ["cmd/idmd/gen/newusers/output_ldif.go:outputLDIF", "cmd/idmd/gen/newusers/newusers.go:DefaultLDIFUserTemplate", "server/handler/ldif/ldif.go:parseLDIFTemplate", "server/handler/ldif/ldif.go:parseLDIFDirectory", "server/handler/ldif/handler.go:Bind", "cmd/idmd/boltdb/load/load.go:Load"]}
{"id": "C94", "title": "Clients see the directory, not its history", "statement": "Two servers with the same settings on database files that hold the same directory, whatever operations made them, answer the same messages alike: every answer other than to a search is equal, a search gives the same code and the same entries up to their order (cut off by a limit or a broken connection: equally many), the same connections are bound to the same names or ended, and the two files hold the same directory afterwards. In particular a file restored by load from what export printed is answered like the original. The order itself, and with a size limit which entries are sent, does depend on the history (C96 says how; C95 says that a restore keeps it).", "quantifier": "every two histories of operations (with I/O errors) leading to one directory, every sequence of opened, closed connections and messages of any number of clients with well formed names and searches whose candidates can be judged", "why_tests_cant": "It compares two unbounded runs on internally different databases (other ids, other child lists); tests look at one run on one file.", "anchors": ["pkg/ldbbolt/ldbbolt.go:Search", "server/handler/boltdb/handler.go:Search", "pkg/ldapserver/server.go:handleConnection", "cmd/idmd/boltdb/export/export.go:Export", "cmd/idmd/boltdb/load/load.go:Load"]}
{"id": "C95", "title": "A restore changes no answer at all", "statement": "Take a database file made by any operations (none of which renames the base entry) with at least one entry, print it with export and load the output into a new file. A server on the new file answers every sequence of messages of any number of clients exactly as a server with the same settings on the old file: the same messages in the same order, including the order of the entries of every search and which of them a size limit lets through, with the same I/O errors and broken connections in both; the same connections stay open under the same names, and both files hold the same directory afterwards. The internal numbers of the entries do differ.", "quantifier": "every history, every sequence of events of any number of clients with well formed names, any injected I/O errors, crashes and failed sends", "why_tests_cant": "Equality of two unbounded runs over databases with different ids rests on a renumbering that every transaction preserves, and on the order of child lists in all reachable states; tests restore one file and compare a few searches.", "anchors": ["cmd/idmd/boltdb/export/export.go:Export", "cmd/idmd/boltdb/load/load.go:Load", "pkg/ldbbolt/ldbbolt.go:EntryPut", "pkg/ldbbolt/ldbbolt.go:addID2Children", "pkg/ldbbolt/ldbbolt.go:Search", "pkg/ldapserver/server.go:handleConnection"]}
{"id": "C96", "title": "Entries below a parent are listed in the order they were added", "statement": "A one-level search of the database lists the children of an entry in the order in which they were added there: after a successful add of a child the list is the old one with the new name at its end, after a delete the old one without that name, after a rename the old one with the new name in the place of the old, and no other operation changes it. There is no list afterwards only if the operation deleted or renamed the parent itself, and then the list was empty.", "quantifier": "every database made by any history, every successful operation in any environment, every parent", "why_tests_cant": "The order follows from an invariant of all reachable databases (child lists ascend in the ids handed out); tests compare sets of entries or the order of one example.", "anchors": ["pkg/ldbbolt/ldbbolt.go:addID2Children", "pkg/ldbbolt/ldbbolt.go:EntryDelete", "pkg/ldbbolt/ldbbolt.go:EntryModifyDN", "pkg/ldbbolt/ldbbolt.go:getChildrenIDs", "pkg/ldbbolt/ldbbolt.go:Search"]}
{"id": "C97", "title": "Clients of the LDIF backend learn about passwords by binding only", "statement": "Take two servers on the LDIF backend whose files, the one served at the start and those reloaded later, differ in the values of userPassword at most. As long as every attempt to bind has the same outcome on both, whatever the one can do with any number of connections at the same time - searches, pages, refused writes, errors, reloads, pumps giving up - the other can do step by step, and every connection is sent the same messages. The outcome of a bind depends only on the value stored for the entry it names; so what clients see is independent of the passwords of all users nobody tries to bind as. This needs userPassword not to be an indexed attribute, as by default: indexed, it can be searched for by value.", "quantifier": "every pair of files equal but for passwords, every sequence of steps of any number of connections, pumps and reloads", "why_tests_cant": "Noninterference relates all pairs of runs; a test compares two.", "anchors": ["server/handler/ldif/ldif.go:treeFromLDIF", "server/handler/ldif/handler.go:Search", "server/handler/ldif/handler.go:Bind", "server/handler/ldif/index.go:AddIndexAttribute", "pkg/ldapserver/server.go:handleConnection"]}
{"id": "C98", "title": "All authenticated connections to the LDIF backend have the same rights, and keep them", "statement": "On the LDIF backend two connections bound to names that both end with the base DN (or both do not) are answered alike, message for message, whatever they ask for and whatever data is served, in particular when the user of one of them is not in the data (any more). A connection keeps its bound name whatever other connections, pumps and reloads do, so a user removed by a reload goes on searching on an open connection.", "quantifier": "every pair of non-empty bound names, every message, every data set, every sequence of steps of others", "why_tests_cant": "All messages and all pairs of names.", "anchors": ["server/handler/ldif/handler.go:Search", "server/handler/ldif/handler.go:validateBindDN", "pkg/ldapserver/server.go:handleConnection"]}
{"id": "C99", "title": "The server on the database backend is an abstract LDAP server on a directory", "statement": "Every run of the server on the database backend, over any connections and any messages, is matched step by step by an abstract server whose whole state is a directory (a finite map from names to entries), the bound name of each open connection, and whether the process is alive: the same responses to every event, the same bound names, and the database represents the abstract directory. For every request the abstract server says, in terms of the directory alone, which responses are sent, what becomes of the connection and which directory follows: binds (success, 49, 34, 1), writes (50 for anyone but the administrator, otherwise the operation's outcome on the directory or its error code), password changes (also when no password can be generated or hashed, C108), searches with any filter, with and without size limit and any names (an unsupported comparison matters only when an entry's judgement reaches it, C106; children are recognised by the text after the first comma, C107), compare, malformed requests (each by its one verdict, C105) and unknown ones. It leaves no choice for binds, writes, password changes, compare, malformed requests and requests of another class, and only the order of the entries for searches without limit. The same holds when the connections are served at the same time: for some order of the requests that keeps the order of each client, the abstract server answers as the clients were answered and ends with the directory the database ends with. For a search without a limit, with any filter and any names, the abstract server leaves only the order of the entries open when every entry in scope is decided; when some entry is undecided and none is fatal, it always ends with an operations error and the connection is dropped; when some entry is fatal and none is undecided, it always crashes.", "quantifier": "every history of the database, every sequence of events on any number of connections with plain messages, every interleaving of the steps of the connections; without I/O errors and failing writes to the socket", "why_tests_cant": "Unboundedly many interleavings of messages on unboundedly many connections; the correspondence is a simulation proved by induction over all of them.", "anchors": ["pkg/ldapserver/server.go:handleConnection", "server/handler/boltdb/handler.go:Bind", "server/handler/boltdb/handler.go:Search", "pkg/ldbbolt/ldbbolt.go:Search"]}
{"id": "C100", "title": "A session in bytes is a session with the abstract server", "statement": "A client sends the bytes of any requests (add, delete, modify, rename, bind, search, extended), one after the other or all at once, on a connection to the server on the database backend. The server writes exactly the responses of the abstract server of C99 to these requests; the database afterwards holds the directory of the abstract server; the connection is open exactly if it is there, bound to the same name, and the bytes after the requests are still to be read. A client that reads the bytes of the responses finds exactly these responses, in this order, and nothing else.", "quantifier": "every database history, every list of requests of less than 2^64 bytes, every text and controls added to the responses", "why_tests_cant": "Unboundedly many byte sequences and database states; the composition of framing, parsing, handling and encoding is proved for all of them.", "anchors": ["pkg/ldapserver/server.go:handleConnection", "pkg/ldapserver/server.go:sendPacket", "server/handler/boltdb/handler.go:Bind"]}
{"id": "C101", "title": "Whatever fails, the directory only goes through permitted operations, and answers tell the truth", "statement": "The server on the database backend runs through any events: connections opening and closing, packets with well-formed names, failing reads, commits and socket writes, crashes before or after a commit, and restarts of the process. At the end the database holds the directory that results from the initial one by a sequence of operations, at most one per packet and in their order; each was asked for by its packet on a connection whose bound name was entitled to it: the administrator to every operation, everybody else who is not anonymous to changing their own password, and a changed password is exactly the one asked for or generated. Every operation reported as done is in the sequence, none reported as failed is. A name that a connection is bound to was earned on this connection, since the last restart, by a bind with the password the directory held at that moment. The same holds for connections served by interleaved goroutines.", "quantifier": "every database history, every sequence of packets, faults, crashes and restarts, every interleaving of connections", "why_tests_cant": "Faults can strike at every database and socket operation of unboundedly long histories; tests sample a few of them, and none of the interleavings systematically.", "anchors": ["pkg/ldapserver/server.go:handleConnection", "server/handler/boltdb/handler.go:Add", "server/handler/boltdb/handler.go:ModifyPasswordExop", "pkg/ldbbolt/ldbbolt.go:EntryPut"]}
{"id": "C102", "title": "The server on the LDIF backend refines an abstract read-only LDAP server on the records of its files", "statement": "An abstract server whose only data are the records of the LDIF file and, with an overlay, those of the overlay, and whose state is the bound name of every connection, answers binds by the record of that name (insufficientAccessRights for names outside the base and remote anonymous clients, unwillingToPerform for an empty password, success for the stored password, operationsError for a password that cannot be compared, invalidCredentials otherwise; a name in the overlay is decided there), refuses every write and password change, answers searches with the records below the base that satisfy scope and filter, without passwords, up to the size limit (with any filter and any names as the records are weighed one after the other, C109), and answers every malformed request by its one verdict (C105). Every run of the server on the LDIF backend, over any number of connections, is a run of this abstract server with the same responses to every event and the same bound names, and the data never change. The abstract server leaves no choice of binds, writes, password changes, comparisons and malformed requests, and of unlimited searches only the order of the entries.", "quantifier": "every LDIF file and overlay that loads, every sequence of connections and messages", "why_tests_cant": "Unboundedly many files, names, filters and message sequences; the refinement covers all of them at once.", "anchors": ["server/handler/ldif/handler.go:Bind", "server/handler/ldif/handler.go:Search", "server/handler/ldif/middleware.go:Bind", "pkg/ldapserver/server.go:handleConnection"]}
{"id": "C103", "title": "Interleaved connections to the LDIF backend, with reloads, refine the abstract read-only server", "statement": "For every run of the server on the LDIF backend with any number of connections whose requests, paged searches and reloads interleave, there is one order of the requests and reloads such that every connection that is between two requests was sent exactly what the abstract read-only server of C102 sends it when it takes the requests in that order, each on the data of the last good reload before it, and is bound as there. The requests of each connection appear in that order as they were read, and the data at the end are the content of the last good reload.", "quantifier": "every run: any number of connections, requests and reloads, interleaved in any way", "why_tests_cant": "The number of interleavings is unbounded and tests see only those that the scheduler happens to produce.", "anchors": ["server/handler/ldif/handler.go:Search", "server/handler/ldif/handler.go:Bind", "server/handler/ldif/handler.go:Reload", "pkg/ldapserver/server.go:handleConnection"]}
{"id": "C104", "title": "A session in bytes with the LDIF backend is a session with the abstract read-only server", "statement": "A client that writes the encodings of any sequence of requests to a connection of the server on the LDIF backend, with or without overlay, is answered as the abstract read-only server of C102 answers these requests: the server reads the same requests from the bytes, the responses are those of a run of the abstract server, the connection is bound, closed or dead as there, the data are unchanged, and a client that parses the bytes of the responses finds exactly these responses.", "quantifier": "every sequence of requests, every LDIF file and overlay that loads, every following bytes", "why_tests_cant": "Unboundedly many byte strings and sessions; the theorem covers all of them.", "anchors": ["server/handler/ldif/handler.go:Search", "server/handler/ldif/handler.go:Bind", "server/handler/ldif/middleware.go:Bind", "pkg/ldapserver/server.go:handleConnection", "pkg/ldapserver/server.go:sendPacket"]}
{"id": "C105", "title": "Every malformed request gets one fixed answer", "statement": "A request of an operation the server knows either makes sense or has exactly one verdict, never both. The verdict is decided by the first fault alone: bind requests are refused with operationsError, protocolError or inappropriateAuthentication by the first element that is missing or wrong; add, delete and rename requests with protocolError, a rename to another parent with unwillingToPerform; a modify request by the first of its changes that cannot be read, with decodingError for an unknown kind, protocolError for a bad attribute, and the end of the process for a missing element; extended requests with operationsError, a password change with wrong fields with decodingError; searches and comparisons are answered with operationsError and the connection is closed. The answer is the one the verdict says for every backend, state and configuration, and the state does not change. To clients that are not bound, writes are answered with insufficientAccessRights and password changes with unwillingToPerform before they are read; all else is as for others.", "quantifier": "every packet, every backend, state, configuration and bound name", "why_tests_cant": "Malformed packets are unbounded in shape; tests cover a few of them and one backend at a time.", "anchors": ["pkg/ldapserver/bind.go:HandleBindRequest", "pkg/ldapserver/add.go:parseAddRequest", "pkg/ldapserver/modify.go:parseModList", "pkg/ldapserver/modifydn.go:parseModifyDNRequest", "pkg/ldapserver/extended.go:parseExtendedRequest", "pkg/ldapserver/pwmodifyexop.go:parsePasswordModifyExop", "pkg/ldapserver/server.go:handleConnection"]}
{"id": "C106", "title": "Every filter has one judgement of every entry, and an unsupported comparison matters only when it is reached", "statement": "Every filter, whether all of its comparisons are supported or not, has exactly one judgement of every entry: satisfied, not satisfied, stuck at an unsupported comparison, or fatal at a substring assertion without components. Members are judged from left to right; a conjunction stops at the first member that is not satisfied, a disjunction judges all of them. The code returns what the judgement says, and for supported filters satisfied means that the entry satisfies the filter by its meaning. A search on the database backend with any filter runs through the entries in scope: it sends those judged satisfied up to the first that is stuck, fatal or over the size limit; with none of these the answer is success, otherwise operationsError or sizeLimitExceeded and the connection is closed, or the process ends. A packet with another tag, or with the wrong number of parts, is refused with operationsError.", "quantifier": "every filter of any depth, every entry, every reachable database, every search request", "why_tests_cant": "Filters are unbounded trees and which member is reached depends on the entry; tests try a few filters on a few entries.", "anchors": ["pkg/ldapserver/filter.go:ServerApplyFilter", "pkg/ldapserver/search.go:HandleSearchRequest", "server/handler/boltdb/handler.go:Search"]}
{"id": "C107", "title": "Base and one-level searches decide every entry by the text of its name after the first comma", "statement": "For every entry with a name and every scope there is exactly one place: below the base; equal to the base or not; a child of the base or not, by the text of its name after the first comma, whether that comma is escaped or not; or torn, when that text is no name. The code answers what the place says. For ASCII names with one assertion per component, whose first component has nothing to escape, the place is the one in the tree. A search on the database backend with any filter and any names asks the filter first and the place of the entry next; it sends the entries that pass both, and the first entry that is stuck, torn, fatal or over the limit ends it with operationsError, sizeLimitExceeded or the end of the process. Without a limit all entries that pass are sent, or one that is undecided ends the search with operationsError after entries that pass.", "quantifier": "every name, base, scope, filter, every reachable database, every search request", "why_tests_cant": "Names are unbounded texts with escapes; tests use plain ones.", "anchors": ["pkg/ldapserver/filter.go:ServerFilterScope", "pkg/ldapserver/search.go:HandleSearchRequest"]}
{"id": "C108", "title": "A password change for which no password can be generated or hashed has one answer and changes nothing", "statement": "Once a password request of a bound client is read, there is either one password (the one of the request, or as many drawn characters as configured) with its hash, or one reason why there is none: a negative configured length or a panic of the hash function end the process, a random source that fails too early or a hash function that fails are answered with operationsError. The answer is the one of the reason whatever the backend, the connection stays open with the same name and the data are unchanged.", "quantifier": "every backend, configured length, sequence of random draws, salt, password request and hash function", "why_tests_cant": "Failures of the random source and of the hash function cannot be provoked; lengths and requests are unbounded.", "anchors": ["pkg/ldapserver/pwmodifyexop.go:HandlePasswordModifyExOp", "pkg/ldappassword/ldappassword.go:GenerateRandomPassword", "pkg/ldappassword/ldappassword.go:Hash"]}
{"id": "C109", "title": "A search on the LDIF backend weighs the records one after the other, with any filter and any names", "statement": "Every filter, base and scope give exactly one verdict on every record as it is served: the filter is asked first (C106), then the place of its name (C107); a base or a name that cannot be read leaves it undecided, a scope other than base, one and subtree lets everything pass. A permitted search goes through records below the base, each at most once, and through all of them if nothing in the filter can be looked up in an index. It returns those that pass, with the attributes asked for and without passwords, and stops with success when the size limit is reached; the first record that is undecided is answered with operationsError and no entry at all, one that is fatal ends the process. Without a limit and without an index the order does not matter: all records that pass are sent, or one undecided record spoils the search. The data never change.", "quantifier": "every LDIF file that loads, every filter, name, scope, size limit, search request and order of the tree", "why_tests_cant": "Filters nest without bound, names are arbitrary texts, and the order of the records decides what is reached.", "anchors": ["server/handler/ldif/handler.go:Search", "server/handler/ldif/filter.go:parseFilterToIndexFilter", "pkg/ldapserver/filter.go:ServerFilterScope"]}
