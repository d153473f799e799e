# A Rocq model of yahoojapan/athenz-authorizer

## Method

* Coq 8.16.1 with std++ (finite maps `gmap`, lists) and the standard library.
* Go strings are byte lists (`str := list ascii`); `int64` is `Z` with explicit wrap/saturation where the
  code can reach it; `time.Time` is `Z` nanoseconds; an error return is a value of `outcome` (`Ok`/`Err`/`Panic`),
  so nil dereferences and other run-time panics of the code are explicit results.
* Sequential code is a total Gallina function. Goroutines, channels and shared maps are labelled state machines
  (`step : label -> state -> option state`); a schedule is an arbitrary list of labels, and theorems quantify over
  all of them. Go map iteration order is an arbitrary permutation chosen by an adversary.
* Third-party behaviour enters either as a small executable model (gache TTL map, strings/utf8/regexp subset,
  url.ParseQuery, jwt claim checks) or as a universally quantified function (signature check, JSON decode, SHA-256,
  Unicode tables above ASCII).
* Layout, per component `X`: `X.v` (model, no proofs), `XSpec.v` (small independent specification),
  `XProofs.v`/`XFacts.v` (lemmas), and `Prop_X.v` (property theorems `Cnn_...`, each with a non-vacuity `Example`
  and `Print Assumptions`).
* A property that the code does not have is kept as stated. Its theorems are a refutation (`_refuted`: a concrete
  execution or input, checked by computation) and the part that does hold (`_partial`, or an exact `_iff`
  characterisation). Such a claim has the status `partial` in `MANIFEST.json`.

## Plan per property

| id | modelled | how proved |
|----|----------|-----------|
| C01-C07 | `CheckPolicyRoles` as a machine: spawner, one worker per role, result channel, caller, cancellation, cache swap (`PolicyCheck.v`) | invariant over all schedules; decreasing measure and progress for C06 |
| C08-C11 | UTF-8, `ToLower`, `EqualFold`, `patternFromGlob`, a regexp parser for the emitted syntax, regexp semantics (`Unicode.v`, `Regex.v`, `Assertion.v`) | parse of generated pattern computed by induction, semantics related to an inductive glob relation |
| C12-C15, C18-C20 | `simplifyAndCachePolicy` as machine (load/store steps) plus the caching goroutines; raw-document decision spec (`PolicySimplify.v`) | refinement of the raw-document spec for all schedules/orders; refutations by `vm_compute` witnesses |
| C16 | gache TTL arithmetic with saturation and wrap (`Gache.v`) | arithmetic; witness for refutation |
| C17 | `Update` with arbitrary fetch results | machine invariant |
| C21-C25 | `Fetch`, `FetchWithRetry`, `Verify` (`Fetcher.v`) | invariant over event histories |
| C26-C30 | public key update at map-operation granularity (`PubKey.v`) | invariants over prefixes, traversal orders and histories |
| C31-C32 | JWK update/lookup (`Jwk.v`) | invariant over histories |
| C33-C36 | role token parser: SplitN, ParseInt, time.Unix wrap (`Role.v`) | round trip and inversion lemmas |
| C37-C42 | access token processor over abstract JWT decoding (`Access.v`) | inversion, arithmetic |
| C43-C55 | `authorize`, `Verify`, `Authorize`, `VerifyRoleCert` over arbitrary back ends; a concurrent machine for C54 (`Authorizer.v`, `RoleCert.v`) | history invariants; witnesses |
| C56-C58 | `Translate`, `validate`, `isPlaceholder`, `url.ParseQuery` (`Translator.v`, `Query.v`) | refinement to a declarative rule-match spec; order independence proof |
| C59, C60 | url util, options, mask (`Config.v`, `Mask.v`) | string lemmas |
| C61-C65 | daemon loops, `Init`, `Start` as machines (`Daemon.v`) | invariants over all schedules |
| C66-C68 | retry transport (`Client.v`) | induction over attempts; field arithmetic over R |
| C69, C70 | `New`, options (`Config.v`) | induction over option lists; witnesses |
| C71, C75 | composition of all machines (`System.v`): every input one part takes from another is the other's output | invariants over executions of the composed machine, projecting to each part; witness run for C75. The hook is excluded cache by cache: `untouched ls o` says that no hook was started while cache `o` was in use; the facts about a cache (C71, C75, C91, C93, C96-C98) need it of the cache the check loaded only, so hooks may have run on any other |
| C72 | the HTTP parts instrumented with the fate of each response body (`Body.v`); erasing the trace gives the original machines | case analysis; a family of executions for the leak |
| C73 | the tickers made by `Start` and `Update` (`Startup.v`) | composition with C69's characterisation of `New` |
| C74 | refreshes of a live cache by the expired hook | caching-machine lemmas |
| C76 | the caching machine with backing arrays (`Slices.v`) | simulation with the machine of values up to exchanged allowances; exact without overlap; conversely every schedule of values is run with arrays |
| C77 | the whole system (`System.v`), theorems in `Prop_Revoke.v` | sources of each cache tracked per cache (`fed`); the pointer moves to newer caches only; results stored after the replacement stem from checks that loaded after it; what calls returned after the server's change (`served`) |
| C78, C79 | the call machine and the HTTP entry points (`Authorizer.v`), theorems in `Prop_Kinds.v` | a call past its look-up was examined by its own processor; header and chain described independently (`header_token`, `leaf`, `carries`) |
| C80, C81 | `Query.v`, `Translator.v`, theorems in `Prop_Query.v` | an inductive description of what a query says (`spells`, `setting`, `says`); replacing slash-free texts commutes with splitting at slashes |
| C82 | `Duration.v`, `GoFloat.v` (time.ParseDuration and Duration.Seconds of Go 1.18) | grammar of sums of numbers with units, with and without fractions; equivalence by induction on the turns of the loop; exactness of the float64 operations on integers below 2^53 |
| C83 | principals as stored and handed out (`Results.v`: heap of arrays, slices) | what a principal says changes only by writes to shown cells; slices of plain callers cover the shown lists |
| C84 | the daemon machine with a clock (`Timed.v`: ticker, sleeps, deadlines for the goroutine's own steps) | a pending tick or failure gives a deadline for the next Update that no step moves; every time has a next tick; after cancellation every location has a budget until the end; runs continued by taking the step with the least work left |
| C85 | the whole system with the policy daemon's loop on one clock (`Joint.v`) | C84 gives a successful Update within the bound, its publication opens a cache filled after the change, C77 does the rest |
| C86 | GetPolicyCache beside the whole system (`Snapshot.v`) | invariant of a call: what it has collected was in force meanwhile, what it must visit; decisions by removing the no-op changes of a check's policy and C07's argument |
| C87 | key updates, tokens and the result cache in the whole system | invariant of the run that received a list: every key is recent, or still to be replaced or swept; last download of each URL lies after the moment; results older than the cache time are gone (as in C77) |
| C88 | the whole system with the loops of all three daemons on one clock (`Running.v`) | each loop is a timed machine of C84, so an Update begins after the change and ends with success within the bound; an Update of the keys that ends well after the change received the list or saw a 304 after one; then C87. Policies: projection to `Joint.v` and C85 |
| C89 | each machine by itself, at any number of calls (`Prop_Terminate.v`) | a measure of the own steps left (or taken), and for each state an enabled step; the time a server takes is not bounded here (C84 bounds the loops by the time of an Update) |
| C90 | the whole system with the goroutines of the caches, their queues of expired keys and the hooks (`Hooked.v`) | every run projects to a run of the whole system; invariant: whatever is queued, pending or running comes from an entry found expired, whose role comes from a downloaded document (invariant of C71); while documents are unexpired every entry is valid, so none is found. Witnesses computed |
| C91 | the system with the precise hook; views of the cache a check has seen | every view of a check lies after its YLoad; entry and assertion come from one job of one Update (roles apart, one fetch per goroutine), so the stored expiry is that of the document plus the delay of the Update. Two witnesses computed |
| C92 | the public methods over the whole system (`Api.v`) | every run projects to a run of the whole system; invariant: what each method has tried is the outcome of an authorize call (or a CheckPolicy with a view of the caches) of that run; then C71, C78, C79. Direct and HTTP: a simulation of runs |
| C93 | the whole system, the public methods, the system with the hook | history of each failed call: one of four reasons; the view of the cache of an Update never changes while its documents are valid, so the check is a run over one constant cache, deny-first; then acceptance of tokens (C34, C37 to C39) and meaning of the documents (C71) |
| C94 | the running authorizer (Running.v) | the outcome of an Update once returned never changes; the errors the loop saw are those of its finished Updates; then C62 for the loop |
| C95 | the running authorizer with the goroutine of Start (`Whole.v`) | every run projects to one of Running.v and one of the Start machine of C65, whose children are the loops; then C94 and the log of C65 |
| C96 | a new grant takes effect within refresh period + turn + Update | the dual of C83/C85: the current cache is from an Update begun after the change (`fresh_cache`), its whole content is the policies served since, so the request is entitled in the sense of C93 |
| C97 | a new key is in force within refresh period + turn + Update | the dual of C88: a run begun after the change and ended without error has stored the key (`puts`), and no later run, nor an overlapping one, takes it away (`key_stays`); with C93 and C96 the token signed by it gets in; witness for the undecodable list |
| C98 | an outage of Athenz takes nothing away | in an outage the key maps, the key sets and the fetchers' copies do not change (`keys_stay`, `key_sets_stay`, `copies_stay`), so `served_at` holds of the copies alone; a cache loaded later is the one current at the start or made by an Update begun since (`published_later`); then C93; witness: the fallback puts an expired policy in force again (system-level consequence of C16) |
| C99 | the policy daemon by the Go memory model (`GoMem.v`, `MemTrace.v`) | executions are lists of memory operations with the write each read observes; happens before from sequence, go, Wait and atomics; the swap of an Update comes after all it and its goroutines wrote, a load that observes the swap after that |
| C100 | the same | witnesses for the two races, checked by computation (`MemCheck.v`); without hooks, with one loop: every pair of conflicting operations is ordered, case by case over the locations; in every execution: the same case analysis leaves three places (`Prop_RaceSites.v`) |
| C101 | what can crash the process | the causes as an inductive predicate over the history; each panic traced to its step, each cause leaves a panicked goroutine, which stays; one crashing run per cause by computation (`Prop_Crash.v`) |
| C102 | calls with different cache keys are independent | a relation between states that ignores the other calls and their cache entries; it is an equivalence, steps of other calls stay within it, kept steps preserve it in both directions (`Prop_Isolation.v`) |
| C103 | a call waits for nobody | every state of a call has an enabled step of its own (`progress` of the check for the check's part); potential of the call plus potential of its check; nested induction for the end (`Prop_WaitFree.v`). The locks inside the libraries and gache's channel of expired keys are not in the model |
| C104 | an expired role is fetched again | refuted by a run whose every continuation without a publication refuses; once the goroutine of a cache has ended: no key is received, no hook, entries only go, views of a check that begins then are parts of the cache at that moment (`Prop_Stopped.v`). That the goroutine ends with its context is the text of gache; here it may end at any time |
| C105 | when its context ends, Update stops | induction over the labels after the cancellation, in the machines of C12-C17 (`Prop_Cancel.v`); lifted to the whole system in `Prop_FailedUpdate.v` |
| C106 | a denied request stays denied whatever query is added | refuted in the whole system (mapping rules); for every rule set a passing query, via the query specification of C80; without rules the query has no influence (`Prop_Bypass.v`) |
| C107 | more denials, fewer grants; more allows, more grants; roles presented | relates two Updates and the checks after them through C12, C15 and C02; refuted with commas in actions by computed runs (`Prop_Monotone.v`) |
| C108 | the HTTP methods agree with the methods given a token, where the query has no say | from C79 and C106; refuted by computation with a query and rules (`Prop_Direct.v`) |
| C109 | nothing is granted before an Update has got the policies of all domains | invariant of the hooked system (no hook while the cache of New is in use), C71, C17 (`Prop_FailClosed.v`) |
| C110 | a lagging copy of the clock (fastime) moves every deadline by at most the lag | C22, C34, C43 with the true time beside each step (`Prop_Lag.v`) |
| C111 | gache with look-up and deletion of an expired entry as two steps (`GacheRace.v`) | what is found was stored in time; an entry stays unless somebody was about to delete its key, which may lose a fresh denial (witness) |
| C112 | the authorizer with the system clock, its lagging copy and losses of cache entries (`Rough.v`) | an accepted request is backed, with bounds in true time; a refused one failed by itself; the exact clock without losses is the machine of C43 |
| C113 | documents of the same assertions in another arrangement (`Prop_Arrange.v`, over C12 and C107) | the verdicts are the same under the conditions of C12; without them an arrangement in two policies, or another order, changes the verdict (witnesses) |
| C114 | users who write to what GetPolicyCache returns (`Handed.v`: arrays and assertions as memory) | the cache is the daemon's own as long as no cell or assertion in it is written; writing, setting a field and even appending change verdicts otherwise (witnesses) |

## Trusted base

* Coq's kernel (with `vm_compute`, used for witnesses and examples only) and the std++ library, which adds no axiom.
* `Print Assumptions`: every theorem in `MANIFEST.json` prints "Closed under the global context", except the
  theorems of C68 (back-off formula), which are about real numbers and print the standard library's
  `ClassicalDedekindReals.sig_not_dec`, `ClassicalDedekindReals.sig_forall_dec` and
  `FunctionalExtensionality.functional_extensionality_dep`. `vcheck` also lists the other axioms and parameters of
  `Coq.Reals`, `Classical_Prop.classic` and `Coq.ssr.ssrunder`: these belong to modules that are loaded, no theorem
  here uses them.
* That the definitions say what the Go code does. Each cites the lines it models.
* The behaviour of the libraries, as modelled:
  * gache v1.2.8: an entry with expiry > 0 is readable until then, one with expiry <= 0 for ever; `StartExpired`
    makes a ticker in a goroutine; the expired hook runs once per expired key. The check of an entry and its deletion
    are one step (in gache somebody who has seen an expired entry may delete the fresh one stored in between: C111), and the
    channel of expired keys never blocks (in gache a full channel without a receiver does) (C90).
  * `ToRawMap` of gache v1.2.8 (sync.Map Range per shard): visits every key that is there from beginning to end, each key
    at most once, copies entries that are not expired and deletes expired ones, stops when its context ends. The map it
    returns shares the assertion slices with the cache; callers of GetPolicyCache that write to them are not
    modelled in C86, and have a model of their own in C114.
  * golang-jwt v4.4.1 `ParseWithClaims`: order of the checks, claims validated with the processor's `Valid`.
  * `net/url.ParseQuery` of Go >= 1.17 (a semicolon is an error) and `url.ParseRequestURI`'s scheme as oracles;
    `time.ParseDuration` and `int64(d.Seconds())` are oracles in `Config.v` and given in full by `Duration.v` and
    `GoFloat.v` (float64 as binary64 of Coq's `SpecFloat`, rounding to nearest even).
  * `regexp` for the patterns the code emits (anchors, literals, escapes, `.`, `.*`); `.` does not match a newline.
  * The Go memory model of June 2022 (go.dev/ref/mem), as stated in `GoMem.v`.
  * `errgroup`, `sync.Map.Range`, `context`, channels and `select` as documented.
  * `encoding/json`: `null` makes a pointer nil without an error; everything else is an arbitrary function.
  * jwx `LookupKeyID`: the first key with the id. `net/http`: a response body is never nil; the RoundTripper contract.
  * `time.NewTicker` panics for a non-positive period.

## What is modelled, and what is not

Modelled: all of `policy/`, `pubkey/`, `jwk/`, `role/`, `access/`, `client/`, `internal/url`, `translator.go`,
`mask.go`, `option.go`, `authorizerd.go` (New, Init, Start, Verify*, Authorize*, VerifyRoleCert, GetPolicyCache,
authorize), `principal.go`.

The memory model and data races are modelled for the words that the policy daemon shares outside its libraries
(`GoMem.v`, C99, C100); all other models take each step of a goroutine to be atomic.

Not modelled: data races inside libraries, TLS/HTTP transport internals, JSON syntax, cryptographic strength, logging
other than masking, real-time behaviour and fairness of the scheduler, memory use.

Simplifications, beyond those in the comments of the definitions:

* Lists of assertions are values. The Go code appends to a slice read from the cache, so two goroutines filling the
  same role might share a backing array; see C76 where this is modelled separately, and C18 for what is lost already
  with values.
* In `System.v` the two keys of a policy are looked up at one moment; a goroutine may use the answer of any finished
  call on its fetcher (more behaviours than the code has).
* Error values are identified by their cause; message texts matter only where the code compares or forwards them.
* Go `int` is 64 bits.
* The clock of the models is what `fastime.Now()` reads: one copy of the system clock per process, refreshed by a
  goroutine, never going back, used by role tokens, policies, retries and gache. Time bounds (C43, C51, C77, C85, C88) are in
  this clock; C110 says what they become in true time. The jwt library reads the system clock itself; the models give
  access tokens the same clock, except `Rough.v` (C112), which has both.
* In `Api.v` each authorizer that a method tries has its own authorize call; errors of VerifyRoleCert are not wrapped;
  Init, Start and GetPolicyCache are modelled elsewhere (C86 for the last).

## Findings about the code

Each is a theorem unless marked "text".

* `*` does not match a text with a newline (C11).
* Two policies that contradict each other on one target race, and the denial may be lost (C13); also between domains
  sharing a role (C18), and between two refreshes (C74). Commas in roles or actions merge assertions (C14).
* The documents' domain and role prefixes are not checked (C19).
* Whoever has found a role's entry expired deletes the fresh entry if the expired hook stores it in between: the role's
  denials are gone until the next refresh, and a request of a token with another, allowed role is granted (C111; rests on
  gache's look-up and deletion being two operations).
* The lists and assertions in the map GetPolicyCache returns are those of the cache. Writing an element or an exported field
  turns denials into grants; an append to a list may replace an assertion that the daemon added since (C114).
* A policy used by fallback after its expiry is cached for ever (C16).
* An unsolicited 304 revives an expired policy or panics; `null` bodies panic, and so do `null` policies and
  assertions in a document with good signatures (C23, C25). C101 lists everything that crashes the process.
* A failed decode poisons the ETag: keys stay old while Update reports success (C29).
* While an expired entry is refreshed in place a request may be granted that every policy denies, and the grant is
  then served from the result cache (C75).
* A refresh in place prolongs what the role was granted before, also by documents that have expired and grants that
  the new document no longer contains (C91).
* The nil tests of a fetcher's copy and the expired hook's read of the current cache are data races; by the letter of the
  memory model the one may dereference nil, the other fill a nil cache (C100).
* A role of a domain that is not configured crashes the process when its entry expires (C90); so does a domain
  configured in another letter case than its roles use.
* A token starting with `s=` chooses the signature that is checked (C36); a far future `iat` passes (C37); a negative
  certificate offset overflows (C40).
* Cache keys collide (C44), ignore the certificate beyond two names (C53), and results outlive tokens (C51); a zero
  cache time caches for ever (C52) and then crashes Start (C73).
* The cache key does not record the kind of credential: a role token accepted once is accepted as an access token
  without a certificate even with certificate binding on, and a bound access token in the role token header (C78).
* Role certificates never authorize an HTTP request (C49); concatenated names are ambiguous (C50).
* Placeholder substitution depends on map order if values contain placeholders (C57).
* A value taken from the query may contain slashes and so add segments to the resource (C81).
* The policy and public key daemons retry a failed periodic Update at once, without retryDelay (C84).
* Daemons stall after 101 unread errors (C63); errors are lost at shutdown (C65).
* The retrying transport returns drained bodies, leaks bodies, does not back off for statuses (C66, C67); key and
  policy downloads leak bodies (C72).
* Configurations are accepted that crash requests or the start (C70, C73).
* `Roles()` and `AuthorizedRoles()` hand out the slices of the cached principal: a caller that writes to them, or
  appends to a part of them, changes what later callers with the same key are told (C83).
* Init's errgroup context is cancelled when Init returns, which stops the goroutine of the cache Init made: what expires
  in it is not fetched again before the first periodic Update (C104).
* A query parameter that no mapping rule names switches all rules of the domain off: method and path
  are then checked as they are, so a rule can not be relied on to protect a path that the policies
  allow untranslated (C106).
* The methods given a token look for a mapping rule without a query; with a query the HTTP methods may decide
  otherwise on the same token, action and resource (C108).
* Text: the README says authorizedClientIDs maps client ids to common names, the code looks up the common name (C39
  states what the code does). FetchWithRetry sleeps also after its last attempt.
