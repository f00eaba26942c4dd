# Formal model of libregraph/idm — design

The code under study is the Go source in `/repo` (read as text, never built or
run).  The model and the proofs are in `rocq/theories` (Rocq/Coq 8.16.1,
std++ for finite maps).  `properties.jsonl` lists the properties in English,
`MANIFEST.json` maps each of them to theorems, `seeded/LOG.jsonl` records the
mutation tests of the model.

## 1. Layers of the model

| model | proofs | properties | models |
|-------|--------|-----------|--------|
| `Bytes.v` | `Bytes.v` | | byte strings (`list ascii`), the Go `strings`/`bytes` helpers used, hex |
| `Text.v` | `Text.v` | | the Unicode-dependent library calls as a class `Text` (fold, EqualFold, ToLower, ToUpper, TrimSpace, []rune conversion, hex BER values), the laws assumed of them (`TextOK`) and two concrete instances satisfying them |
| `Dn.v` | `DnProofs.v` | `P_Dn.v` | go-ldap `ParseDN`, `DN.EqualFold`; `pkg/ldapdn` |
| `Res.v`, `Entry.v` | `EntryProofs.v` | `P_Entry.v` | outcomes (value, error, panic, out of fuel); go-ldap entries, `pkg/ldapentry` |
| `Password.v` | `PasswordProofs.v` | `P_Password.v` | `pkg/ldappassword`; hash libraries as class `Crypto` with laws `CryptoOK` |
| `Db.v` | `IdProofs.v`, `DbProofs.v`, `DbOps.v`, `DbSearch.v`, `DbFacts.v`, `DbMore.v` | `P_Db.v` | bbolt buckets, transactions, fault and crash injection; `pkg/ldbbolt` at byte level (8-byte ids, concatenated child lists) |
| `DbSpec.v` | | | the abstract directory (finite map from folded names to entries): specification, independent of `Db.v` |
| `Conc.v` | `ConcProofs.v` | `P_Db.v` | concurrent use of one database: one writer, snapshot readers |
| `Packet.v` | `CrashProofs.v` | `P_Server.v` | asn1-ber packet trees and all request parsers of `pkg/ldapserver` |
| `Filter.v` | `FilterProofs.v`, `ScopeProofs.v` | `P_Filter.v` | `ServerApplyFilter`, `ServerFilterScope`, `ServerFilterAttributes`, the search loop, `routeFunc` |
| `Handler.v` | `ServerProofs.v` | `P_Server.v` | handler interface, `server/handler/boltdb` |
| `Server.v` | `ServerProofs.v`, `CrashProofs.v` | `P_Server.v` | `handleConnection` as a step function over packets, any number of connections, process crash explicit |
| `Encode.v` | `EncodeProofs.v` | `P_Encode.v` | specification of request packets (RFC 4511, RFC 3062) |
| `E2e.v` | `E2eProofs.v`, `SessionProofs.v` | `P_E2e.v`, `P_Session.v` | vocabulary for whole messages on the database backend |
| `Ldif.v` | `LdifProofs.v`, `LdifMore.v` | `P_Ldif.v` | `server/handler/ldif`: tree, index, bind, search, overlay |
| `Paging.v` | `PagingProofs.v` | `P_Paging.v` | pump goroutines, paging, timers, reloads as a transition system |
| `Reload.v` | `P_Reload.v` | `P_Reload.v` | signal queue and reload loop of `server/server.go` |
| `Stats.v` | `StatsProofs.v` | `P_Stats.v` | statistics mutex, any number of goroutines |
| `Template.v` | `TemplateProofs.v` | `P_Template.v` | template functions, path cleaning, base64 stream |
| `Source.v` | `SourceProofs.v` | `P_Source.v` | reading LDIF files and folders, the comment-stripping step |
| `Gen.v` | `GenProofs.v` | `P_Gen.v` | `cmd/idmd/gen/newusers` |
| `Passwd.v` | `P_Passwd.v` | `P_Passwd.v` | `cmd/idmd/gen/passwd`, the verbs of `fmt.Fprintf` without arguments |
| `Startup.v` | `P_Startup.v` | `P_Startup.v` | settings, `NewServer`, `boltdb load` |
| `Ber.v`, `Reply.v` | `BerProofs.v` | `P_Wire.v` | packets as bytes, the response encoders, the connection loop over bytes |
| `Life.v` | `P_Life.v` | `P_Life.v` | listeners, accept loops, main loop, shutdown and exit code as a transition system |
| `FilterText.v` | `FilterTextProofs.v` | `P_FilterText.v` | go-ldap `DecompileFilter` and `CompileFilter`: filters as text, a concrete instance `go_wire` of `Wire` |
| `Conns.v` | `ConnsProofs.v` | `P_Conns.v` | connections served at the same time: requests in stages around their transaction; refines `Server.v`, where a request is one step |
| `Mux.v` | | `P_Mux.v` | handlers registered for suffixes and the choice between them; with the one that Serve registers it is `Server.v` |
| `Cmdline.v` | | `P_Cmdline.v` | flags, environment variables and defaults of all commands, down to `Startup.v`, `Passwd.v` and `Gen.v` |
| `Counted.v` | `CountedProofs.v` | `P_Counted.v` | `Conns.v` and `Stats.v` together: the server with metrics enabled |
| `Procs.v` | `ProcsProofs.v` | `P_Procs.v` | processes sharing the database file: servers, loads and exports, and bbolt's lock on it |
| `Objects.v` | `ObjectsProofs.v` | `P_Objects.v` | the handler objects of the LDIF backend in memory: which object serves after WithHandler and WithContext, what a reload stores where, requests between the steps of a reload |
| | `AccountProofs.v` | `P_Account.v` | the life of an account by messages, and the values of an entry after a rename |
| | `ProvisionProofs.v` | `P_Provision.v` | from the user file of newusers to a login on the LDIF backend |
| | `TwinProofs.v` | `P_Twin.v` | two servers on databases with the same directory, message by message |
| | `IsoProofs.v`, `OrderProofs.v`, `ListProofs.v` | `P_Order.v` | databases that differ in the numbers of the entries only; the order of child lists |
| | | `P_Leak.v` | two LDIF servers whose files differ in passwords, side by side |
| | | `P_Refine.v`, `P_RefineWire.v` | an abstract LDAP server on directories, refined by the server on the database, also for interleaved connections and for bytes |
| | | `P_Faults.v` | histories with I/O errors, crashes and restarts: which operations happened, and what was answered |
| | | `P_LdifRefine.v` | an abstract read-only LDAP server on lists of records, refined by the server on the LDIF backend, with or without overlay |
| | | `P_LdifVisit.v` | the LDIF server with interleaved connections and reloads, and sessions in bytes, refine the abstract read-only server |
| | | `P_Malformed.v` | one verdict for every malformed request, whatever the backend |
| | | `P_Judge.v` | every filter, supported or not: its judgement of an entry and the search with it |
| | | `P_Place.v` | base and one-level searches for any names: by the text after the first comma |
| | | `P_Unmade.v` | password changes for which no password can be generated or hashed |
| | | `P_LdifJudge.v` | searches on the LDIF backend with any filter and any names |
| `LdifConns.v` | `LdifConnsProofs.v` | `P_LdifConns.v` | connections served at the same time by the LDIF backend: the loop of each connection around the searches of `Paging.v`, with the paging controls of the messages |
| | `Conform.v` | | every unit test of `/repo` run on the model |

Library oracles are type classes: `Text`, `Crypto` (with stated laws), `Wire`
(filter compiling and decompiling, inner packets, control decoding; concrete in
`FilterText.v` except for controls), `Trees`
(the suffix tree of the LDIF backend as an ordered walk), `Files` (text/template
and the LDIF parser; for C93 with the laws `renders` and `reads` of
`ProvisionProofs.v`, met by the instance `mini_files` there).

Errors are values, nil is explicit, a Go panic is the explicit outcome `Panic`
(recovered where the code recovers).  Integers are `N`/`Z` with explicit wrap
where Go wraps and the property depends on it.  Recursion that Go leaves
unbounded (`getSubtreeIDs`) runs on fuel with an explicit `Diverge` outcome
which the theorems exclude.

Proofs live in `*Proofs.v`; files `P_*.v` contain the property theorems only,
each followed by `Print Assumptions` and a concrete, computed example meeting
its hypotheses.

## 2. Trusted base

* Coq's kernel (8.16.1), `vm_compute` for the concrete witnesses.
* `Print Assumptions` of each property theorem is printed by the build; all of
  them report *Closed under the global context* (no axioms at all).  A scan of
  the loaded library also lists the axioms of Coq's `ssreflect` (`ssrunder`
  under-relations), which std++ imports; no theorem here depends on them.
* The transcription from Go into Gallina; each definition cites file and lines.
  `Conform.v` checks it on the inputs and expected results of all unit tests in
  `/repo`.
* External libraries, modelled from their documented behaviour and not from
  source (they are not in `/repo`): go-ldap/v3 (ParseDN, EqualFold, NewEntry,
  GetEqualFoldAttributeValue(s), NewError/Error, CompileFilter, DecompileFilter), asn1-ber packet trees and
  their bytes (X.690, definite lengths, tags below 31), bbolt
  (atomic Update with rollback on error or panic, snapshot View, NextSequence
  starting at 1, key size limits, the lock on the file), encoding/gob (decode after encode is the
  identity on entries), suffix/radix trees (a map with prefix/suffix walk),
  x/text case folding (only the laws `TextOK`; folding is a function here, although
  `pkg/ldapserver/filter.go:31` shares one `cases.Caser` between all connections,
  which the documentation of the library advises against), argon2id / crypt / sha1 /
  base64 (class `Crypto`, only the stated laws), cobra and pflag (which arguments
  are flags, values and operands, when help is printed).

Not modelled: TLS, TCP, logging, metrics export, LDIF text syntax and the
text/template language (their results are inputs of the model), timing.

## 3. Properties

See the table in section 5; it is kept in step with `MANIFEST.json`.
Planned method per group:

* C01–C04 (DN): concrete parser and printer; round trip by induction on the
  value bytes, injectivity from a left inverse; counterexamples by computation.
* C05–C11 (entries): induction over change lists.
* C12–C28 (database): simulation invariant between the byte-level buckets and
  the abstract directory, preserved by each operation; histories by induction;
  failures and crashes by a fault oracle consulted at every write and at
  commit; concurrency as a transition system of readers with snapshots and one
  writer.
* C29–C32 (passwords): case analysis over the scheme with hash oracles.
* C33–C38 (server): invariants of the step function over arbitrary packets.
* C39–C44 (search): structural induction over filters, composition with the
  database search.
* C45–C53 (LDIF): data-set invariants; the pump and the client as a labelled
  transition system.
* C54–C57: transition system with a mutex; list and path lemmas.

Where the code does not have a property a user would expect, the theorem named
`…_refuted` exhibits the witness, and section 4 records the finding.

## 4. Findings

Behaviour of the code at the pinned commit that a user would not expect, each
established by the theorem named.  Line numbers refer to `/repo`.

### Crashes and hangs

1. *Unauthenticated remote crash.*  A search with an empty substring filter
   panics in `filter.go:113` outside any recover; so do malformed modify lists
   (`modify.go:85,98`).  (C37)
2. *Any user can crash the server.*  A non-admin password change for somebody
   else makes the handler return an error with nil `Err`, dereferenced in
   `extended.go:36`.  (C37)
3. Add, Delete and ModifyDN with an empty DN index an empty RDN list.  (C37)
4. `Validate` panics on short `{CRYPT}` and `{SSHA}` values
   (`ldappassword.go:55,77`); recovered on bind, not on password change.
   (C31, C37)
5. `countAdds` locks its mutex twice (`stats.go:48-50`): with statistics
   enabled the first add blocks its connection, the accept loop and the metrics
   endpoint for good.  Anybody can do it, without binding, by an add request
   without content.  (C54_add_blocks, C88_add_stops, C88_anybody)
6. Abandoning a paged LDIF search waits on a nil channel for ever
   (`ldif/handler.go:291-297,331`).  (C60)
7. An LDIF entry without userPassword makes the bind panic; it is recovered and
   answered with OperationsError.  (C48)
8. `newusers` panics on lines of five or six fields (`newusers.go:160-171`).
   (C67_crash)  A template variable AutoIncrementMin of a type other than uint64
   panics at load.  (C66_start)

### Wrong results

9. `ApplyModify` takes the values for a delete from the entry before the whole
   request (`ldapentry.go:68`), so earlier changes of the request are lost.  (C10)
10. Adding a value twice in one change stores it twice; an add request naming a
    type twice keeps the last list only.  (C08, C11)
11. `Normalize` does not escape attribute types, keeps the order of multi-valued
    RDNs and uses full folding where go-ldap uses simple folding.  (C04, C12, C43)
12. A name whose last value ends in a space has a normal form that does not
    parse.  (C01_last_space_refuted)
13. Only the first component of a substring filter is looked at
    (`filter.go:113,119`).  (C39_components_refuted)
14. One-level scope splits the DN text at raw commas (`filter.go:166`): entries
    with escaped commas make the search fail, semicolons lose entries.
    (C42, C43_comma_refuted)
15. Scope check and lookup fold differently, so an entry that is found can be
    dropped.  (C43_folding_refuted)
16. Requesting an attribute twice, or with "*", returns it twice; TypesOnly is
    ignored.  (C41)
17. The LDIF index misses entries that satisfy the filter.  (C49)
18. LDIF searches select by string suffix of the DN text, so `xo=base` is in
    `o=base`.  (C58)
19. Size limits: LDIF searches are cut off with Success (C59) and per page (C61);
    the database backend disconnects the client.  (C40, C36)
20. A paged LDIF search whose last page is exactly full gives a cookie that is
    refused (C50_case); a pump that times out ends the pages silently
    (C50_timeout_refuted); cookies work on any connection (C62).
21. A childless base entry can be renamed, after which the database has no base.
    (C21_renamed_base_refuted)
22. `routeFunc` ties are broken by map order.  (C44_tie_refuted)
23. Compare is answered with a request tag, then disconnected.
    (C36_compare_refuted)
24. A reload of overlay and backend is not atomic.  (C51_overlay_refuted)
25. `Clone` leaves out the connection maximum, which is always reported as 0.
    (C63)
26. File inclusion drops up to two bytes: the base64 stream is not closed.
    (C57_whole_refuted)
27. Lines of 65536 bytes or more silently end an LDIF template or a user file
    (C65_long_line, C67_long_line); folded comments leak into the value before
    them (C65_folded_comment_refuted).
28. User numbers can collide: explicit zero, wrap-around, equal explicit numbers
    (C55); group number zero prints no gidNumber.
29. A search below a missing base is answered with Success.  (C43_missing_base
    with `boltdb/handler.go:298`)

### Security

30. The database backend answers every search, also unauthenticated ones and
    with userPassword.  (C46)
31. A failed bind keeps the identity of the previous one.  (C38)
32. `allowLocalAnonymousBind` is not limited to local clients in the database
    backend (`boltdb/handler.go:123-129`).
33. The password operation returns the hash instead of the generated password
    (`pwmodifyexop.go:80`), so nobody knows the new password.  (C73_generated_unknown)
34. `{CLEARTEXT}` values written by `Hash` callers do not validate, and clear
    text beginning with a brace expression validates nothing.  (C29)
35. `newusers` gives users without password their name as clear-text password
    (C68_missing) and does not escape names in DNs or against the template
    language (C69_place_refuted).
36. `gen passwd` prints the hash, or the generated password, through a format
    string (`passwd.go:144`): a percent sign mangles it.  It asks for a password
    when the secret file cannot be read, losing the error (`passwd.go:108-111`);
    `--generate=false` generates; the line feed ending a secret file counts; a
    generated password in braces is unusable.  (C75_*_refuted)
37. Only an administrator found in the database can write, so a server on an
    empty database can never be filled through LDAP.  (C72_empty_locked)

### Starting and loading

38. `Configure` drops the error of `ParseNormalize` (`ldbbolt.go:65`): with a base
    ending in an escaped space, or on `boltdb load` with any base that does not
    parse, the database has the empty base.  (C76_space_refuted,
    C77_bad_base_refuted)
39. The LDIF handler refuses a base written with blanks that the database handler
    accepts.  (C76_spelling_refuted)
40. The help of `boltdb load` says an existing database is overwritten; an entry
    that exists makes the command fail and what was loaded before it stays.
    (C77_not_overwritten, C77_load)
49. `--ldap-allow-local-anonymous false` allows anonymous binds: the word is taken
    as an operand, and `serve` ignores operands.  (C87_word_refuted)  The tools of
    `boltdb` do not share the default file of `serve`; without `--boltdb-file` they
    try to open a file without name.  (C87_load, C87_export)

### Binding

41. On the database backend too a bind to an entry without userPassword panics
    (`ldappassword.go:24` on the empty value); the recovered panic is answered by
    operationsError, where a wrong password or a missing entry is answered by
    invalidCredentials, so that anybody can tell them apart.
    (C80_no_password_refuted)

### Searching

42. A search that ends in an error, be it only sizeLimitExceeded, ends the
    connection (`pkg/ldapserver/server.go:419`).  (C74_limited, C74_malformed)
46. A client need not send a filter without substrings to crash the server: one
    with an empty component becomes `(a=**)` as text, which is compiled to one
    without.  (C84_crash)
47. Filters go through text whose attribute descriptions are not escaped, so that
    one assertion can be read as several.  (C84_injection_refuted)  Filters with
    the dnAttributes flag are refused.  (C84_refused)
48. The library picks a handler by comparing its suffix with the name as written
    (`pkg/ldapserver/server.go:450-464`): another spelling of a name goes to
    another handler, and `foo=base` is taken to be below `o=base`.  idmd registers
    one handler only.  (C86_spelling_refuted, C86_boundary_refuted)

### Running and stopping

43. One error of Accept, such as too many open files, ends the accepting on that
    listener for good (`pkg/ldapserver/server.go:188-193`); the server runs on and
    reports nothing.  (C83_accept_error, C83_deaf_refuted)
44. A clean shutdown waits for the listeners and the reload, not for connections:
    requests may be under way, and an accepted connection may never be handled nor
    closed.  (C83_unhandled_refuted)
45. Any signal during the shutdown ends it, SIGHUP too
    (`server/server.go:243-246`); the limit of ten seconds (226) has no effect, so that
    a reload that hangs is waited for without end.  (C83_hangup_refuted)
50. A database file that is being served cannot be exported, so there is no backup
    without stopping the server, and a second server started on it hangs without a
    word: bbolt is opened without a timeout (`ldbbolt.go:58`, `handler.go:81`).
    (C89_waits)
51. `WithContext` copies the handler (`ldif/handler.go:155-164`,
    `ldif/middleware.go:111-120`) and reloads change the copy, so the data loaded at
    the start stays in memory as long as the server runs.  (C91_first_kept)
52. The middleware's data and the main data are switched one after the other and
    looked at one after the other: a user moved from the main file to the
    middleware's file can be refused during a reload although they are accepted
    before, between and after.  (C91_moved_refuted)
53. Templates in the middleware's file include files only from the folder of the
    main source, as both share `options.templateBasePath`.  (C91_folder)
54. A bind is checked once; the connection then keeps its name whatever becomes of
    the entry.  Deleting a user or changing their password ends no session: who
    was bound as a deleted user counts as whoever gets that name later and can set
    their password without knowing it, and a deleted administrator goes on as
    administrator.  (C92_session, C92_successor_refuted, C92_administrator_refuted)
55. Each deletion in a modify request starts from the values before the request
    (`ldapentry.go:68`), so a rename that is to delete an old RDN with two values of
    one type deletes only the last of them.  (C23_old_values_refuted)
56. The output of `gen newusers` cannot be loaded into the database backend: it is a
    template, `boltdb load` (`load.go:60-70`) knows no templates, and
    `uid=…,ou=Users,ou={{.Company}},{{.BaseDN}}` is no DN, which `EntryPut`
    (`ldbbolt.go:183-186`) dereferences without a check: a panic unless the LDIF
    library refuses the file.  (C93_not_for_boltdb)
57. The order in which a search sends the entries, and with a size limit which of
    them, depends on how the database came about: below a parent, the order in
    which the entries were added (a rename keeps the place).  No other answer
    depends on it.  Exporting and loading a database keeps the order, although the
    entries get other numbers.  (C94_order_refuted, C94_same_answers, C96_listing,
    C95_restored_exactly)
58. On the LDIF backend an indexed userPassword (`AddIndexAttribute`, for programs that
    embed the server; not indexed by default) can be searched for by value, because
    the index is filled from all attributes (`ldif.go`, `index.go`) and only the filter is
    checked on what is visible.  (C97_indexed_refuted)
59. A connection to the LDIF backend keeps its rights when a reload removes the user
    it is bound as: Search looks at the suffix of the name only.  (C98_same_rights,
    C98_session, C98_case)
60. An unsupported comparison (`>=`, `<=`, `~=`, extensible) in a filter is no error in
    itself: the search fails when the first entry reaches it, so the same search
    succeeds or fails with the order and the content of the entries
    (`pkg/ldapserver/filter.go:48-147`).  The database backend has then sent the
    entries before that one; the LDIF backend sends none of them.  A single record
    whose name is cut at an escaped comma has the same effect on one-level searches.
    (C106_search, C107_search, C109_search, C109_all_or_nothing)

## 5. Status per property

`MANIFEST.json` is the exact list.  In short: every property listed in
`properties.jsonl` has theorems that cover its statement, `…_refuted` theorems are the
witnesses for the negative parts.  Conditions under which a property holds are
hypotheses of its theorem and part of its statement.

| group | properties | where |
|-------|-----------|-------|
| names | C01–C04, C81 | `P_Dn.v`, `P_Names.v` |
| entries | C05–C11 | `P_Entry.v` |
| database | C12–C28 | `P_Db.v` |
| passwords | C29–C32 | `P_Password.v` |
| server | C33–C38, C46 | `P_Server.v` |
| search | C39–C44 | `P_Filter.v` |
| whole messages | C70–C74 | `P_Encode.v`, `P_E2e.v`, `P_Session.v` |
| LDIF backend | C45, C47–C49, C53, C58 | `P_Ldif.v` |
| paging | C50, C51, C59–C62 | `P_Paging.v`, `P_Ldif.v` |
| reload, statistics | C52, C54, C63 | `P_Reload.v`, `P_Stats.v` |
| templates, sources | C56, C57, C64–C66 | `P_Template.v`, `P_Source.v` |
| commands | C55, C67–C69, C75, C77 | `P_Gen.v`, `P_Passwd.v`, `P_Startup.v` |
| starting | C76 | `P_Startup.v` |
| bytes on the wire | C78, C79 | `P_Wire.v` |
| bind by messages | C80 | `P_Bind.v` |
| LDIF bind and search by messages | C82 | `P_LdifMsg.v` |
| listeners and shutdown | C83 | `Life.v`, `P_Life.v` |
| filters as text | C84 | `P_FilterText.v` |
| connections at the same time | C85 | `P_Conns.v` |
| several handlers | C86 | `P_Mux.v` |
| command line and environment | C87 | `P_Cmdline.v` |
| metrics enabled | C88 | `P_Counted.v` |
| processes sharing the file | C89 | `P_Procs.v` |
| connections at the same time on the LDIF backend | C90 | `P_LdifConns.v` |
| handler objects and reloads | C91 | `P_Objects.v` |
| the life of an account | C92 (and the values of C23) | `P_Account.v` |
| from a user file to a login | C93 | `P_Provision.v` |
| the same directory in two databases | C94–C96 | `P_Twin.v`, `P_Order.v` |
| what clients of the LDIF backend learn | C97, C98 | `P_Leak.v` |
| the server refines an abstract LDAP server | C99, C100 | `P_Refine.v`, `P_RefineWire.v` |
| whatever fails, only permitted operations | C101 | `P_Faults.v` |
| the LDIF server refines an abstract read-only server | C102 | `P_LdifRefine.v` |
| interleaved connections, reloads and sessions in bytes of the LDIF server | C103, C104 | `P_LdifVisit.v` |
| malformed requests | C105 | `P_Malformed.v` |
| every filter, supported or not | C106 | `P_Judge.v` |
| base and one-level searches for any names | C107 | `P_Place.v` |
| no password can be generated or hashed | C108 | `P_Unmade.v` |
| LDIF searches with any filter and any names | C109 | `P_LdifJudge.v` |
