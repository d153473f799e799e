{"id": "C01", "title": "Deny overrides allow, across all roles of a request", "statement": "If any requested role has an assertion in the policy snapshot that matches the domain, action and resource with effect deny, CheckPolicyRoles/CheckPolicy returns an error; it never returns success, whatever other roles or assertions allow.", "quantifier": "all policy snapshots (any number of roles and assertions in deny-first order), role lists, actions, resources, goroutine interleavings and cancellation instants", "why_tests_cant": "one goroutine per role races on a shared channel; a test sees one schedule and a few policies", "anchors": ["policy/daemon.go:CheckPolicyRoles", "policy/daemon.go:CheckPolicy"]}
{"id": "C02", "title": "Success only with a matching allow", "statement": "If CheckPolicyRoles returns (roles, nil) then the list is non-empty, is (up to order) exactly the sub-list of requested roles having a first matching assertion, every returned role was requested and holds a matching allow assertion, and no requested role holds a matching deny. CheckPolicy, not cancelled, returns nil if and only if the policy current at some instant of the call allows the request to one of the roles and denies it to none.", "quantifier": "all snapshots, role lists (with duplicates), actions, resources, schedules, cancellation instants", "why_tests_cant": "result order and the moment of early return depend on scheduling", "anchors": ["policy/daemon.go:CheckPolicyRoles"]}
{"id": "C03", "title": "Default deny", "statement": "When no assertion of any requested role matches (unknown domain, unknown role, empty role list, nothing matching) an uncancelled CheckPolicyRoles returns ErrNoMatch, never success and never another error.", "quantifier": "all snapshots, role lists, actions, resources and schedules", "why_tests_cant": "absence of a match must be shown for every snapshot and every request", "anchors": ["policy/daemon.go:CheckPolicyRoles", "policy/error.go:ErrNoMatch"]}
{"id": "C04", "title": "The verdict does not depend on the schedule", "statement": "For a fixed snapshot and request, every complete uncancelled execution gives the same verdict class (allow / explicit deny / no match), and the returned role multiset is always the same.", "quantifier": "all pairs of complete schedules of the same check", "why_tests_cant": "the space of interleavings is unbounded in the number of roles and assertions", "anchors": ["policy/daemon.go:CheckPolicyRoles"]}
{"id": "C05", "title": "Cancellation fails closed", "statement": "If the caller's context is cancelled at any point during a check, the check returns success only if the snapshot really authorizes the request, and then with the complete list of authorized roles; otherwise it returns an error.", "quantifier": "all cancellation instants in all schedules", "why_tests_cant": "cancellation can fall between any two steps of any goroutine", "anchors": ["policy/daemon.go:CheckPolicyRoles"]}
{"id": "C06", "title": "Checks terminate and leak no goroutine", "statement": "No execution of CheckPolicyRoles deadlocks, blocks on its result channel, sends on a closed channel, or runs forever: every maximal execution is finite and ends with the caller answered and every goroutine finished, even when the caller returns early on a deny.", "quantifier": "all schedules, any number of roles and assertions", "why_tests_cant": "liveness over all interleavings; the deadlock test in the repo samples one configuration", "anchors": ["policy/daemon.go:CheckPolicyRoles"]}
{"id": "C07", "title": "A check reads one policy snapshot", "statement": "When Update swaps the policy cache while a check is running, the whole check is answered from the cache that was current at a single instant between the call and the return, never from a mix of old and new policy.", "quantifier": "all interleavings of one check with any number of swaps", "why_tests_cant": "needs every placement of the swap among the goroutine steps", "anchors": ["policy/daemon.go:CheckPolicyRoles", "policy/daemon.go:Update"]}
{"id": "C08", "title": "Assertion matching is exactly glob matching", "statement": "A cached assertion created from (action, resource) matches a request iff its lower-cased action glob matches the lower-cased request action and its lower-cased resource glob (after the first ':') matches the lower-cased request resource, where '*' matches any run of non-newline characters, '?' one non-newline character, and every other character only itself.", "quantifier": "all glob strings and all subject strings, including regexp metacharacters, non-ASCII and invalid UTF-8", "why_tests_cant": "strings are unbounded; escaping bugs hide in untested metacharacter combinations", "anchors": ["policy/assertion.go:NewAssertion", "policy/assertion.go:patternFromGlob", "policy/assertion.go:isRegexMetaCharacter", "policy/daemon.go:CheckPolicyRoles"]}
{"id": "C09", "title": "No regexp injection and no pattern compile failure", "statement": "For every action and resource text, the generated pattern is accepted by the regexp compiler; NewAssertion fails only when the resource has no ':' and then with ErrInvalidPolicyResource. A glob without '*' and '?' matches a single text only (modulo case).", "quantifier": "all strings", "why_tests_cant": "quantifies over every policy text", "anchors": ["policy/assertion.go:NewAssertion", "policy/assertion.go:patternFromGlob"]}
{"id": "C10", "title": "Case-insensitive decisions", "statement": "Changing the ASCII letter case of the request action or resource, of an assertion's action, resource or resource domain, or of the word deny in its effect does not change whether the assertion matches or what it decides.", "quantifier": "all strings and all case changes", "why_tests_cant": "every subset of letters may change case", "anchors": ["policy/assertion.go:NewAssertion", "policy/daemon.go:CheckPolicyRoles"]}
{"id": "C11", "title": "A '*' wildcard covers every text", "statement": "An assertion with action '*' (or resource 'dom:*') matches every action (every resource). REFUTED for texts containing a newline; holds for every newline-free text.", "quantifier": "all action and resource strings", "why_tests_cant": "needs a string no test author tries", "anchors": ["policy/assertion.go:patternFromGlob"]}
{"id": "C12", "title": "Caching a policy preserves its meaning", "statement": "After a signed policy document is simplified and cached (deduplication, deny override, deny-first ordering, per-role grouping), the verdict for every request equals the verdict of the raw document: denied if some raw deny assertion of a requested role matches, else allowed if some raw allow assertion matches, else no match; holds when role and action texts contain no comma and equal assertions with opposite effects are not in two different policies.", "quantifier": "all policy documents, all requests, all orders in which the maps are traversed, all goroutine interleavings of the simplification", "why_tests_cant": "map order and interleavings are nondeterministic, documents unbounded", "anchors": ["policy/daemon.go:simplifyAndCachePolicy", "policy/assertion.go:NewAssertion"]}
{"id": "C13", "title": "Deny overrides allow for equal assertions of different policies", "statement": "If one policy of a document denies and another allows the same (role, action, resource), the cached policy denies it. REFUTED: the check-then-store on the shared map is not atomic and an interleaving drops the deny. Holds for every schedule in which each load/store pair runs without interference.", "quantifier": "all documents and all interleavings of the per-policy goroutines", "why_tests_cant": "the losing interleaving is a rare race window", "anchors": ["policy/daemon.go:simplifyAndCachePolicy"]}
{"id": "C14", "title": "Deduplication never merges different assertions", "statement": "Two assertions are treated as duplicates only if their role, action and resource are equal. REFUTED when fields contain commas (a deny assertion can vanish); holds when role and action are comma-free.", "quantifier": "all pairs of assertions", "why_tests_cant": "collision needs a specific pair of texts", "anchors": ["policy/daemon.go:simplifyAndCachePolicy"]}
{"id": "C15", "title": "Cached assertion lists are deny-first", "statement": "In every cached role entry all deny assertions precede all allow assertions, after any sequence of updates and expiry refreshes.", "quantifier": "all histories of caching operations, any order of map traversal, any interleaving", "why_tests_cant": "an invariant over unbounded histories", "anchors": ["policy/daemon.go:simplifyAndCachePolicy"]}
{"id": "C16", "title": "Cached entries do not outlive the policy expiry", "statement": "A role entry cached from a policy that is unexpired when cached stops being used after the policy expiry plus the time spent between reading the clock and storing the entry. REFUTED for the fallback path: an already expired policy is stored without any expiry.", "quantifier": "all expiry dates, clock readings and lookup times", "why_tests_cant": "boundary and sign cases of saturating 64-bit time arithmetic", "anchors": ["policy/daemon.go:simplifyAndCachePolicy", "policy/fetcher.go:FetchWithRetry"]}
{"id": "C17", "title": "Update is all-or-nothing", "statement": "If Update returns an error, checks and GetPolicyCache keep answering from the previous cache; if it returns nil, they answer from a cache built only from the policies obtained in this update, for every configured domain.", "quantifier": "all fetch outcomes of all domains, all interleavings of the per-domain workers, cancellation", "why_tests_cant": "needs every failing subset of domains and every interleaving", "anchors": ["policy/daemon.go:Update", "policy/daemon.go:fetchAndCachePolicy"]}
{"id": "C18", "title": "Concurrent caching of different domains does not interfere", "statement": "When the per-domain workers of one Update run concurrently on the shared new cache and their documents mention disjoint role names, the resulting entry of every role equals what its own domain alone would have produced. REFUTED without disjointness: a concurrent refresh of the same role can lose a deny assertion.", "quantifier": "all documents and all interleavings of reads and writes of the shared cache", "why_tests_cant": "read-modify-write races", "anchors": ["policy/daemon.go:simplifyAndCachePolicy", "policy/daemon.go:Update"]}
{"id": "C19", "title": "A domain's document only affects that domain", "statement": "Policy fetched for domain A never changes verdicts for requests in domain B. REFUTED: neither the document's domain nor its assertions' role prefixes are checked; holds when all assertion roles of the document start with 'A:role.'.", "quantifier": "all documents and requests", "why_tests_cant": "needs a document whose content disagrees with the URL it was fetched from", "anchors": ["policy/fetcher.go:Fetch", "policy/daemon.go:simplifyAndCachePolicy"]}
{"id": "C20", "title": "Resource domain must match the token domain", "statement": "An assertion is applied only if the text before the first ':' of its resource equals the request's domain (case folding), and only to requests naming exactly the role key 'domain:role.role'.", "quantifier": "all assertions and requests", "why_tests_cant": "all strings", "anchors": ["policy/daemon.go:CheckPolicyRoles", "policy/assertion.go:NewAssertion"]}
{"id": "C21", "title": "Only verified policies are served", "statement": "Every signed policy returned by Fetch or FetchWithRetry, and every policy kept for fallback, was successfully verified when it was downloaded: unexpired at that time, ZTS signature valid over the signed data under the named ZTS key, and ZMS signature valid over the policy data under the named ZMS key.", "quantifier": "all histories of server responses, key sets, times and failures", "why_tests_cant": "an invariant over unbounded histories of adversarial server responses", "anchors": ["policy/fetcher.go:Fetch", "policy/fetcher.go:FetchWithRetry", "policy/signed_policy.go:Verify"]}
{"id": "C22", "title": "Signed policy verification is exact", "statement": "Verify returns nil iff the document has data, has an expiry strictly in the future, both named keys are known, and both signatures verify; no other path accepts.", "quantifier": "all documents, key providers, clocks", "why_tests_cant": "all combinations of missing parts", "anchors": ["policy/signed_policy.go:Verify"]}
{"id": "C23", "title": "A conditional request never revives an expired policy", "statement": "Fetch sends If-None-Match only while the cached policy is at least the expiry margin away from its expiry, so a 304 answer to a conditional request yields a policy that is unexpired at request time (margin >= 0). REFUTED for a 304 answer to an unconditional request.", "quantifier": "all histories, margins and times", "why_tests_cant": "time/ETag state space", "anchors": ["policy/fetcher.go:Fetch"]}
{"id": "C24", "title": "Retry discipline", "statement": "FetchWithRetry makes at most retryAttempts+1 attempts (none if negative beyond -1), stops at the first success, and when all fail returns the newest cached policy together with an error, or no policy and an error; it never returns neither.", "quantifier": "all attempt counts and all response sequences", "why_tests_cant": "unbounded counts", "anchors": ["policy/fetcher.go:FetchWithRetry"]}
{"id": "C25", "title": "A misbehaving server cannot crash the updater", "statement": "No server answer makes Fetch or the public key update panic. REFUTED: 304 without a cached copy, and the JSON body null, dereference nil. Holds for every other answer.", "quantifier": "all server answers and cache states", "why_tests_cant": "requires adversarial servers", "anchors": ["policy/fetcher.go:Fetch", "pubkey/daemon.go:fetchPubKeyEntries"]}
{"id": "C26", "title": "Key set after an update equals the server's key set", "statement": "When a public key update downloads a new list and succeeds, afterwards a key id resolves iff it is in the list, to the verifier of its last occurrence; removed keys no longer resolve.", "quantifier": "all key lists, previous states and orders of map traversal", "why_tests_cant": "unbounded lists, nondeterministic order", "anchors": ["pubkey/daemon.go:Update", "pubkey/daemon.go:getPubKey"]}
{"id": "C27", "title": "Failed key update changes no key", "statement": "If the update of an environment fails (HTTP error, undecodable key anywhere in the list), every key of that environment resolves as before; the other environment is independent.", "quantifier": "all responses and states", "why_tests_cant": "failure can be at any position of the list", "anchors": ["pubkey/daemon.go:Update"]}
{"id": "C28", "title": "No key gap while an update is applied", "statement": "At every instant during an update each key id present both before and after resolves (to its old or its new verifier), and no id absent from both resolves.", "quantifier": "all intermediate states, all traversal orders", "why_tests_cant": "readers race with the update", "anchors": ["pubkey/daemon.go:Update", "pubkey/daemon.go:getPubKey"]}
{"id": "C29", "title": "A successful update means the keys are current", "statement": "After Update returns nil the key set corresponds to the list the server currently serves. REFUTED: the ETag is remembered before the keys are decoded, so after one failed decode the next update is answered 304 and reports success with the old keys. Holds if no earlier download of the same entity failed to decode.", "quantifier": "all histories of updates", "why_tests_cant": "needs a specific two-update history", "anchors": ["pubkey/daemon.go:Update", "pubkey/daemon.go:fetchPubKeyEntries"]}
{"id": "C30", "title": "ZMS and ZTS keys are separate", "statement": "Looking up a ZTS key never returns a key published only for ZMS, and vice versa, after any history of updates.", "quantifier": "all histories", "why_tests_cant": "history invariant", "anchors": ["pubkey/daemon.go:getPubKey", "pubkey/daemon.go:Update"]}
{"id": "C31", "title": "Access token keys come only from configured URLs", "statement": "The JWK provider returns a key only if it was in the key set last successfully downloaded from a configured URL (the Athenz URL when the token names none) under exactly that key id; an unknown jku or empty kid yields no key.", "quantifier": "all update histories, key ids and jku values", "why_tests_cant": "history invariant over adversarial tokens", "anchors": ["jwk/daemon.go:getKey", "jwk/daemon.go:Update"]}
{"id": "C32", "title": "JWK update keeps going and keeps old keys on failure", "statement": "A JWK update attempts every configured URL and the Athenz URL, refreshes exactly the sets whose download succeeded, leaves the others as they were, and returns an error iff some download failed.", "quantifier": "all URL lists and outcome patterns", "why_tests_cant": "exponentially many failure patterns", "anchors": ["jwk/daemon.go:Update", "jwk/daemon.go:isContain"]}
{"id": "C33", "title": "Role token parsing inverts rendering", "statement": "Parsing the standard rendering of a role token returns exactly its domain, roles, principal, timestamps, key id, signed text and signature; extra unknown fields are ignored.", "quantifier": "all field values free of the separators", "why_tests_cant": "unbounded strings and integers", "anchors": ["role/processor.go:parseToken", "role/token.go:SetParams"]}
{"id": "C34", "title": "An accepted role token is signed and unexpired", "statement": "ParseAndValidateRoleToken succeeds only if the text before the first ';s=' verifies under the ZTS key named in it, and the current time is not after its e= field, which must be present; every reported field is a function of the signed text only.", "quantifier": "all token strings, key providers and clocks, including integer overflow of the expiry", "why_tests_cant": "adversarial strings, 64-bit boundaries", "anchors": ["role/processor.go:ParseAndValidateRoleToken", "role/processor.go:parseToken", "role/processor.go:validate", "role/token.go:Expired"]}
{"id": "C35", "title": "Malformed role tokens are rejected", "statement": "A token without ';s=' or with a field lacking '=' or with a non-int64 time is rejected with an error; no token string makes the parser panic.", "quantifier": "all strings", "why_tests_cant": "adversarial strings", "anchors": ["role/processor.go:parseToken", "role/token.go:SetParams"]}
{"id": "C36", "title": "The signature checked is the one after ';s='", "statement": "The signature passed to the verifier is the text after the first ';s='. REFUTED for tokens whose signed part starts with 's='; holds for all others.", "quantifier": "all token strings", "why_tests_cant": "specific shape", "anchors": ["role/processor.go:parseToken", "role/token.go:SetParams"]}
{"id": "C37", "title": "An accepted access token is signed, unexpired and already valid", "statement": "ParseAndValidateOAuth2AccessToken succeeds only if the token has three segments, its signature verifies under the key the provider returns for its kid/jku, exp is present and later than now, and iat and nbf, if present, are not later than now.", "quantifier": "all token strings, keys and clocks", "why_tests_cant": "adversarial inputs", "anchors": ["access/processor.go:ParseAndValidateOAuth2AccessToken", "access/claim.go:Valid", "access/processor.go:keyFunc"]}
{"id": "C38", "title": "Certificate binding is exact", "statement": "With certificate binding enabled, a validated token is accepted iff a client certificate is given and either its SHA-256 thumbprint equals the token's, or the token has a thumbprint and the rotation rule holds (offset non-zero, non-empty equal common name and client id, adjusted certificate issue time in [iat, iat+offset]), or one of the certificate's URIs is in the token's proxy principals.", "quantifier": "all certificates, claims and settings", "why_tests_cant": "boundary combinations", "anchors": ["access/processor.go:validateCertificateBoundAccessToken", "access/processor.go:validateCertPrincipal"]}
{"id": "C39", "title": "Client id check is exact", "statement": "With client id verification enabled, a token is accepted only with a certificate whose common name is configured with the token's client id.", "quantifier": "all configurations, certificates, claims", "why_tests_cant": "combinations", "anchors": ["access/processor.go:validateClientID"]}
{"id": "C40", "title": "Certificate rotation arithmetic does not overflow", "statement": "For every accepted token and certificate with dates in the supported range, the 64-bit sums in the rotation rule equal the mathematical sums.", "quantifier": "all int64 claim values", "why_tests_cant": "64-bit boundaries chosen by the token", "anchors": ["access/processor.go:validateCertPrincipal", "access/claim.go:Valid"]}
{"id": "C41", "title": "Algorithm confusion is impossible", "statement": "With asymmetric keys in the key sets, no token with alg none or an HMAC alg is ever accepted, and a token is only verified with the algorithm family of the key.", "quantifier": "all token headers", "why_tests_cant": "adversarial headers", "anchors": ["access/processor.go:keyFunc", "jwk/daemon.go:getKey"]}
{"id": "C42", "title": "Key selection by header", "statement": "A token without a string kid, or with a non-string jku, is rejected; a missing jku selects the Athenz key set.", "quantifier": "all headers", "why_tests_cant": "all JSON header shapes", "anchors": ["access/processor.go:keyFunc", "access/processor.go:getAsStringFromHeader"]}
{"id": "C43", "title": "No acceptance without validation, bounded staleness", "statement": "Whenever AuthorizeRoleToken/AuthorizeAccessToken succeeds, the token had been completely validated and authorized by policy by this or an earlier call with the same cache key, at most cacheExp before (cacheExp > 0).", "quantifier": "all histories of calls, updates and time steps", "why_tests_cant": "unbounded histories", "anchors": ["authorizerd.go:authorize"]}
{"id": "C44", "title": "A cached verdict is only reused for the same request", "statement": "Two calls that share a cached verdict have the same token, action, resource, query and certificate. REFUTED (delimiter collisions; only common names of the certificate are keyed); holds for token, names and action free of ':' and equal certificate presence, up to the certificate's common names.", "quantifier": "all pairs of requests", "why_tests_cant": "needs specific string pairs", "anchors": ["authorizerd.go:authorize"]}
{"id": "C45", "title": "Failures are never cached", "statement": "A failed authorization leaves the success cache unchanged; a repeated call is evaluated afresh.", "quantifier": "all states and calls", "why_tests_cant": "all error paths", "anchors": ["authorizerd.go:authorize"]}
{"id": "C46", "title": "Empty action or resource is rejected", "statement": "With policy checking enabled, a token call with an empty action or resource fails with ErrInvalidParameters in every state, even if something is cached.", "quantifier": "all states and calls", "why_tests_cant": "all states", "anchors": ["authorizerd.go:authorize"]}
{"id": "C47", "title": "Verify and Authorize agree and are a disjunction", "statement": "For the same state and request, Verify returns nil iff Authorize returns a principal, iff some enabled credential check succeeds; on failure both return ErrInvalidCredentials; Authorize returns the first success in the order role certificate, access token, role token.", "quantifier": "all configurations, states and requests", "why_tests_cant": "all combinations", "anchors": ["authorizerd.go:Verify", "authorizerd.go:Authorize", "authorizerd.go:initAuthorizers"]}
{"id": "C48", "title": "Returned principal describes the presented token", "statement": "The principal's name, roles, domain, times and client id are those of a validated token, and with policy enabled its authorized roles are a non-empty sub-multiset of its roles.", "quantifier": "all histories", "why_tests_cant": "history invariant", "anchors": ["authorizerd.go:authorize", "principal.go"]}
{"id": "C49", "title": "Role certificates in HTTP requests", "statement": "A request carrying a valid role certificate is authorized by Verify/Authorize when role certificates are enabled. REFUTED: the role certificate authorizer always fails, so certificates alone never authorize.", "quantifier": "all requests", "why_tests_cant": "universal negative", "anchors": ["authorizerd.go:AuthorizeRoleCert", "authorizerd.go:initAuthorizers"]}
{"id": "C50", "title": "VerifyRoleCert accepts iff some domain's roles are allowed", "statement": "With policy enabled VerifyRoleCert succeeds iff for some domain the set of roles the certificates carry in that domain (common name 'domain:role.role' or URI prefix+'domain/role') passes CheckPolicy, independent of map order; no roles means an error. REFUTED when two different (domain, role) pairs concatenate to the same text (a role is dropped, possibly one that denies); holds otherwise.", "quantifier": "all certificate lists, policies, map orders", "why_tests_cant": "map order and collisions", "anchors": ["authorizerd.go:VerifyRoleCert"]}
{"id": "C51", "title": "Expired tokens are not accepted", "statement": "No token is accepted after its expiry. REFUTED: a cached success is returned without looking at the expiry; the overrun is at most cacheExp.", "quantifier": "all histories", "why_tests_cant": "time-dependent histories", "anchors": ["authorizerd.go:authorize"]}
{"id": "C52", "title": "A non-positive cache expiry disables caching", "statement": "With CacheExp <= 0 results are not cached. REFUTED: such entries never expire.", "quantifier": "all histories", "why_tests_cant": "needs third-party semantics of TTL <= 0", "anchors": ["authorizerd.go:authorize", "option.go:WithCacheExp"]}
{"id": "C53", "title": "Certificate-bound tokens stay bound", "statement": "With certificate binding enabled every acceptance of an access token was validated against the very certificate presented. REFUTED: within cacheExp another certificate with equal issuer and subject common names is accepted.", "quantifier": "all histories", "why_tests_cant": "two-call history with specific certificates", "anchors": ["authorizerd.go:authorize", "access/processor.go:validateCertificateBoundAccessToken"]}
{"id": "C54", "title": "Concurrent authorizations are safe", "statement": "With any number of concurrent calls interleaving their cache reads, validations and cache writes, every success is backed by a complete validation of the same key.", "quantifier": "all interleavings of all calls", "why_tests_cant": "interleavings", "anchors": ["authorizerd.go:authorize"]}
{"id": "C55", "title": "Policy sees the translated, prefixed resource", "statement": "With policy enabled, the policy check of a token call gets exactly the translator's output for (domain, action, resource, query) (or the raw values without translator) with the resource prefix prepended; a translator error rejects.", "quantifier": "all configurations and requests", "why_tests_cant": "combinations", "anchors": ["authorizerd.go:authorize"]}
{"id": "C56", "title": "Translation applies the first matching rule", "statement": "Translate returns the action and substituted resource of the first rule of the domain whose method matches (case-insensitively), whose path segments and query parameters match exactly or by placeholder; if none matches the method and path are returned unchanged.", "quantifier": "all rule sets and requests", "why_tests_cant": "unbounded", "anchors": ["translator.go:Translate"]}
{"id": "C57", "title": "Translation is deterministic", "statement": "The translated resource does not depend on map iteration order and equals the simultaneous substitution of placeholders. REFUTED when a request value contains a placeholder text; holds when values contain no '{' and the template's braces are well formed.", "quantifier": "all orders of traversal, all rules and requests", "why_tests_cant": "map order is randomised", "anchors": ["translator.go:Translate"]}
{"id": "C58", "title": "Accepted rule sets are well formed", "statement": "NewMappingRules succeeds only if every domain is non-empty, every rule has a method, action, resource, a path that is empty or starts with '/', no empty or duplicate placeholder and single-valued query parameters; then the parsed rule mirrors its path.", "quantifier": "all rule sets", "why_tests_cant": "unbounded", "anchors": ["translator.go:NewMappingRules", "translator.go:validate", "translator.go:isPlaceholder"]}
{"id": "C59", "title": "Only https Athenz URLs are contacted", "statement": "If configuration is accepted, the stored Athenz URL has no scheme and every policy, public key and default JWK URL is 'https://' followed by it; unsupported schemes are rejected.", "quantifier": "all URL strings", "why_tests_cant": "unbounded", "anchors": ["internal/url/util.go", "policy/option.go:WithAthenzURL", "pubkey/option.go:WithAthenzURL", "jwk/option.go:WithAthenzJwksURL", "option.go:WithAthenzURL"]}
{"id": "C60", "title": "Logs do not contain token signatures", "statement": "The masked role token contains nothing from the first ';s=' on, the masked access token nothing from the last '.' on, and the masked cache key nothing of the token; masking never panics.", "quantifier": "all tokens and requests", "why_tests_cant": "unbounded strings", "anchors": ["mask.go", "authorizerd.go:authorize"]}
{"id": "C61", "title": "Refresh loops always retry after a failure", "statement": "In the policy, public key and JWK refresh loops a failed update always leaves a retry queued, at most one retry is ever queued, and queueing never blocks.", "quantifier": "all interleavings of ticks, update results, consumers and cancellation", "why_tests_cant": "unbounded executions", "anchors": ["policy/daemon.go:Start", "pubkey/daemon.go:Start", "jwk/daemon.go:Start"]}
{"id": "C62", "title": "Refresh errors are reported in order and none is lost", "statement": "Every update error is delivered on the daemon's error channel in order (for the JWK daemon possibly merged into a later one), and after cancellation the channel is closed with the context error last.", "quantifier": "all executions", "why_tests_cant": "unbounded executions", "anchors": ["policy/daemon.go:Start", "pubkey/daemon.go:Start", "jwk/daemon.go:Start"]}
{"id": "C63", "title": "Refresh loops never stall when nobody reads errors", "statement": "Refreshing continues even if the error channel is not drained. REFUTED for policy and public key daemons (blocked after 101 undelivered errors); holds for the JWK daemon until shutdown.", "quantifier": "all executions", "why_tests_cant": "needs >100 failures", "anchors": ["policy/daemon.go:Start", "pubkey/daemon.go:Start", "jwk/daemon.go:Start"]}
{"id": "C64", "title": "Init order and completeness", "statement": "Init fetches policies only after the public keys were updated successfully; it returns nil only if every enabled daemon updated successfully, and an error of some child otherwise.", "quantifier": "all interleavings and outcomes of the child updates", "why_tests_cant": "interleavings", "anchors": ["authorizerd.go:Init"]}
{"id": "C65", "title": "Authorizer error fan-in", "statement": "Every error the authorizer's Start channel delivers before shutdown is an error of a child tagged with its origin, per-child order is preserved, and the channel closes after the context error.", "quantifier": "all interleavings", "why_tests_cant": "interleavings", "anchors": ["authorizerd.go:Start"]}
{"id": "C66", "title": "HTTP retry bound", "statement": "RoundTrip calls the transport at most maxRetryCount times, never retries a non-temporary error, stops at the first non-retriable response, and never sleeps past the time limit.", "quantifier": "all response sequences", "why_tests_cant": "unbounded sequences", "anchors": ["client/exp_rt.go:RoundTrip"]}
{"id": "C67", "title": "A successful HTTP response is usable", "statement": "RoundTrip returns a response whose body can still be read. REFUTED: a successful body is drained and closed; with maxRetryCount <= 0 it returns neither response nor error.", "quantifier": "all responses", "why_tests_cant": "semantic of the returned body", "anchors": ["client/exp_rt.go:RoundTrip"]}
{"id": "C68", "title": "Back-off formula", "statement": "The simplified wait formula equals the documented one for every retry count and factor, waits grow strictly and the n first waits sum to n^2 times the base. In float64 the n-th wait is exactly (2n+1) second / factor^2 for every whole factor whose square divides a second, as long as that fits 53 bits.", "quantifier": "all counts and factors", "why_tests_cant": "real arithmetic", "anchors": ["client/exp_rt.go:calNextWaitDur", "client/exp_rt.go:NewExponentialRoundTripper"]}
{"id": "C69", "title": "Later options win; a usable authorizer is returned", "statement": "New applies defaults then user options in order, the last setting of each field wins, fails if any option fails or no credential type is enabled, and otherwise returns an authorizer whose enabled parts are configured.", "quantifier": "all option lists", "why_tests_cant": "all option sequences", "anchors": ["authorizerd.go:New", "option.go", "authorizerd.go:initAuthorizers"]}
{"id": "C70", "title": "Accepted configurations cannot crash requests", "statement": "If New succeeds, no request panics. REFUTED: role tokens enabled with the public key daemon disabled, or access tokens with the JWK daemon disabled, call a nil provider.", "quantifier": "all configurations and requests", "why_tests_cant": "combinations of switches", "anchors": ["authorizerd.go:New", "role/processor.go:validate", "access/processor.go:keyFunc"]}
{"id": "C71", "title": "End-to-end authorization soundness", "statement": "Composing all parts: a role token is accepted by an authorizer only if (at validation time) its signed text verifies under a ZTS key the server last published, it is unexpired, and the verified policy of its domain allows one of its roles and denies none for the translated request.", "quantifier": "all histories and inputs", "why_tests_cant": "whole-system quantification", "anchors": ["authorizerd.go:authorize", "role/processor.go", "policy/daemon.go", "pubkey/daemon.go"]}
{"id": "C74", "title": "Refreshing an expired entry in place", "statement": "When an entry of the live policy cache runs out, the policies of its domain are fetched again and added to the live cache. If no other refresh overlaps it, afterwards each role of the fetched document holds exactly what it held before plus the document's assertions, in deny-first order; roles of other documents are untouched; and no refresh puts in an assertion that no document holds. It should also hold that overlapping refreshes never lose a denial (it does not).", "quantifier": "all documents, caches, clocks and interleavings of the goroutines", "why_tests_cant": "Needs every interleaving of the cache writers with every clock, tests run one schedule", "anchors": ["policy/daemon.go:187-192", "policy/daemon.go:fetchAndCachePolicy", "policy/daemon.go:simplifyAndCachePolicy"]}
{"id": "C75", "title": "What every policy denies stays denied", "statement": "If every signed policy ever downloaded for a domain denies a role a request, no request of that role is granted it, at any time, including while entries expire and are refreshed in place, and nothing wrong stays in the result cache.", "quantifier": "all executions of the whole system", "why_tests_cant": "The failure needs a particular interleaving of expiry, refresh and request", "anchors": ["policy/daemon.go:187-192", "policy/daemon.go:CheckPolicyRoles", "authorizerd.go:authorize"]}
{"id": "C72", "title": "Response bodies are released", "statement": "Every HTTP response body obtained while downloading policies or public keys is closed, whatever the server answers.", "quantifier": "all server responses (status, decodability, read errors) and all sequences of updates", "why_tests_cant": "Tests with httptest never count unclosed bodies; the leak shows only over long histories of unchanged (304) or failing answers.", "anchors": ["policy/fetcher.go:Fetch", "policy/fetcher.go:flushAndClose", "pubkey/daemon.go:fetchPubKeyEntries"]}
{"id": "C73", "title": "An accepted configuration can be started", "statement": "If the constructor accepts the options, then starting the daemons and completing a policy update do not crash the process; in particular the default periods work.", "quantifier": "all lists of options, all duration texts", "why_tests_cant": "The crash happens in a background goroutine after the constructor returned success and only for particular values; tests use a handful of good texts.", "anchors": ["authorizerd.go:New", "authorizerd.go:Start", "pubkey/daemon.go:Start", "policy/daemon.go:Start", "policy/daemon.go:Update", "jwk/daemon.go:Start"]}
{"id": "C76", "title": "Sharing of slices does not change decisions", "statement": "The cached list of assertions of a role behaves like a value: filling the cache from several goroutines, which append to slices read from the cache, gives the entries that copying the lists would give; in particular no denial is lost, moved or made up by array sharing, no assertion of another role shows up, and the list a request is reading does not change.", "quantifier": "all numbers of goroutines, all interleavings of reads, appends and writes, all growth policies of append", "why_tests_cant": "A write into the spare cell of a shared array needs two goroutines between read and write of one role and an array with spare room; no test arranges that.", "anchors": ["policy/daemon.go:simplifyAndCachePolicy", "policy/daemon.go:CheckPolicyRoles"]}
{"id": "C77", "title": "Revocation takes effect after one update and the cache time", "statement": "Once Athenz stops serving a grant, no request is granted because of it any more after (1) an Update that downloaded after the change has published its cache, (2) the requests for the same cache key that were reading an older cache have returned, and (3) the cache time of results has passed: every authorized role of a later accepted request is allowed by a policy Athenz served, or confirmed with 304, after the change (or by the copy a call fell back on when all its attempts failed). In-place refreshes and concurrent updates, requests and downloads are covered.", "quantifier": "all executions of the whole system: any numbers of requests, Updates, hooks, key updates and fetches, all interleavings, all server answers, all documents, all clocks", "why_tests_cant": "It relates four concurrent parts (server, fetcher, updates, requests) over time; tests exercise each part alone and cannot enumerate interleavings between a load of the cache pointer, its replacement and the storing of a verdict.", "anchors": ["authorizerd.go:authorize", "policy/daemon.go:Update", "policy/daemon.go:CheckPolicyRoles", "policy/daemon.go:fetchAndCachePolicy", "policy/fetcher.go:Fetch"]}
{"id": "C78", "title": "Role tokens and access tokens are not mixed up", "statement": "Whenever AuthorizeAccessToken (or an Authorization header) is accepted, the presented text is an acceptable access token, and whenever AuthorizeRoleToken (or a role token header) is accepted, the presented text is an acceptable role token. (False: the result cache does not record the kind of credential. True: a call that examines its token examines it as its own kind; if all calls with the same cache key are of one kind, a success rests on a token good as that kind; and the returned principal always tells the kind it was validated as.)", "quantifier": "all configurations, keys, histories and interleavings of concurrent calls", "why_tests_cant": "needs a history of two calls of different kinds with one cache key", "anchors": ["authorizerd.go:authorize", "authorizerd.go:AuthorizeAccessToken", "authorizerd.go:AuthorizeRoleToken", "principal.go"]}
{"id": "C79", "title": "An HTTP request is judged on exactly the credentials it carries", "statement": "Authorize on an HTTP request succeeds only on the token of its Authorization header (less a leading 'bearer ' in any case) together with the leaf certificate of its TLS connection, or on the value of the role token header, of an enabled kind, each with the request's raw query; a good credential of this sort suffices unless another check panics; a request carries at most one credential of each kind.", "quantifier": "all HTTP requests, configurations, caches, times, keys and policies", "why_tests_cant": "all headers, chains and cache states", "anchors": ["authorizerd.go:initAuthorizers", "authorizerd.go:Authorize"]}
{"id": "C80", "title": "Query parameters are decoded exactly once", "statement": "The translator sees exactly the key/value pairs the query says: settings separated by '&', key and value separated by the first '=', %XX and '+' decoded once, repeated keys keep all values in order; a ';' or a bad escape is an error. Two queries that give each key the same values, however spelled and ordered, are translated alike.", "quantifier": "all query texts, rule sets, iteration orders", "why_tests_cant": "all encodings of all queries", "anchors": ["translator.go:Translate", "net/url.ParseQuery"]}
{"id": "C81", "title": "A placeholder value stays within its segment", "statement": "The translated resource has the path segments of the rule's resource with the request's values put in: no request can add, remove or shift a segment. (True for rules that take values only from the path; false for rules with query placeholders, whose decoded values may contain slashes.)", "quantifier": "all accepted rule sets, requests and iteration orders", "why_tests_cant": "all request values", "anchors": ["translator.go:Translate", "translator.go:validate"]}
{"id": "C82", "title": "Durations in options mean what they say", "statement": "A duration text given to an option is accepted exactly if it is an optionally signed sum of numbers with units h, m, s, ms, us, ns (or 0) that fits 64 bits, and then its value is that sum, where the part behind a decimal point contributes what float64 arithmetic gives; this is the exact quantity to the nanosecond for whole numbers and for fractions with no more digits than the unit has decimal places (1.5h is 90 minutes). The certificate options keep a duration of whole seconds exactly. The documented default texts are durations, and New without options runs with 24h/1m/168h/84h for keys, 30m/1m/1h and a margin of 3h for policies, 24h/1m for key sets.", "quantifier": "all texts", "why_tests_cant": "all texts", "anchors": ["policy/option.go:WithRefreshPeriod", "pubkey/option.go:WithRefreshPeriod", "jwk/option.go:WithRefreshPeriod", "access/option.go:WithClientCertificateGoBackSeconds"]}
{"id": "C83", "title": "Results are isolated from callers", "statement": "A call answered from the result cache returns the principal that was stored under its key, whatever earlier callers did with the principal and the lists it gave them. (False: Roles() and AuthorizedRoles() return the internal slices. True, and exactly so, for callers that write to no element of those lists; reading, appending to what the getters returned, and copying are safe.)", "quantifier": "all numbers of callers and principals, all interleavings, all capacities of arrays", "why_tests_cant": "all interleavings of callers and all capacities", "anchors": ["principal.go:Roles", "principal.go:AuthorizedRoles", "authorizerd.go:authorize"]}
{"id": "C84", "title": "Daemons refresh in time", "statement": "While its context lives, the error channel has room whenever it sends (the JWK daemon: always), Update returns within D, sleeps within S and the goroutine is scheduled within L, a daemon calls Update in every interval of length refreshPeriod + D + S + 4L. After a failed Update the next one is called within S + 4L. So, once Updates succeed, after any moment t a successful Update that began after t is over by t + refreshPeriod + 2D + S + 4L. After any failure (JWK) or a failed retry (policy, public keys) the next Update is called no sooner than retryDelay. (Not true of the first failure of the policy and public key daemons, which is retried at once; without a reader their Updates stop.) After its context is cancelled at t, and given room for the last error, the goroutine is at its end by t + (n+1)(D + S + 5L), n being the number of Updates it still calls; n has no bound, since select may pass over ctx.Done() while ticks or failures are pending. After the end nothing is called any more. (Every run of the timed machine can be continued beyond any time, so none of this holds for lack of runs.)", "quantifier": "all timings, all interleavings of ticks, cancellation, reads and results of Update, all lengths of runs", "why_tests_cant": "all timed schedules over unbounded time", "anchors": ["policy/daemon.go:Start", "pubkey/daemon.go:Start", "jwk/daemon.go:Start"]}
{"id": "C85", "title": "How long a revoked policy may still count", "statement": "With the policy daemon running as in C84 (context alive, error channel with room, Update within D, sleeps within S, scheduling within L), suppose that from some moment on the server speaks of policies satisfying P only (its replies, and the documents it confirms by 304 or that calls fall back to), and from time t on no Update fails. Every call of a verification method that begins later than t + (refreshPeriod + 2D + S + 4L) + d + cacheExp, where d bounds the time of a policy check, and is granted, is granted by roles that a policy satisfying P allows for the call's action and resource.", "quantifier": "all timings, all interleavings of the daemon's loop, the downloads, the caches and all callers, all server behaviours and document contents", "why_tests_cant": "real-time bound over all schedules of an unbounded run of several concurrent parts", "anchors": ["policy/daemon.go:Start", "policy/daemon.go:Update", "authorizerd.go:Start", "authorizerd.go:authorize"]}
{"id": "C86", "title": "GetPolicyCache shows the policies that decide", "statement": "A call of GetPolicyCache returns, with the policy daemon enabled, a map whose every entry was in force (an unexpired entry of the cache that was current when the call began) at some moment of the call, and which contains every entry that was in force all through the call, unless the call's context ends. If the cache does not change during the call the result is exactly what is in force. Every assertion shown stems from a downloaded policy with valid signatures, under the key of its role. A call has no effect on any later read or decision. With the policy daemon disabled the result is empty. And decisions follow it: a policy check on a cache that shows m throughout grants exactly the roles that have an applying assertion in m, only if no role is denied by m, and fails only because m denies a role, nothing in m applies, or the check was cancelled. Whatever else is going on, a call that has begun or is about to begin can always run to its end by its own steps.", "quantifier": "all interleavings of any number of GetPolicyCache calls with Updates, expiry, downloads and verification calls; all cache contents", "why_tests_cant": "interleavings of a concurrent map iteration with writers and deletions", "anchors": ["authorizerd.go:GetPolicyCache", "policy/daemon.go:GetPolicyCache", "policy/daemon.go:CheckPolicyRoles"]}
{"id": "C87", "title": "Revoked keys stop counting", "statement": "Take a moment at which no key update is still applying an older list. Once an update of the environment begun or answered after it has received a key list and ended without error, every public key in force for the environment was in a list received after that moment, at once and ever after; the same holds for the key set of a JWK URL once it has been downloaded again, and one JWK update that starts after the moment and returns nil downloads all of them. From then on policies are accepted only with both signatures by such keys (or by confirmation of an earlier acceptance with status 304). And after the cache time (counted from when the verifications of the same request that had validated the token earlier have returned), a verification succeeds only if the token of a request with the same cache key was validated after the update, against a key received after the moment: a token signed with a key that the servers no longer publish is refused.", "quantifier": "all schedules of key updates, JWK updates, policy updates and verification calls; all key lists and key sets; all tokens", "why_tests_cant": "needs every overlap of key updates, the result cache and calls in progress", "anchors": ["pubkey/daemon.go:fetchAndCachePubKeyEntries", "jwk/daemon.go:Update", "authorizerd.go:authorize", "role/processor.go:ParseAndValidateRoleToken", "access/processor.go:ParseAndValidateOAuth2AccessToken"]}
{"id": "C88", "title": "How long a revoked key or policy can still count", "statement": "Start runs the loops of the policy, key and JWK daemons beside any number of verification calls, on one clock. Suppose the keys are changed at a moment up to t, the loop of the daemon is not cancelled, somebody reads its errors, its Updates take at most their bound and succeed from t on, and the server answers 'not modified' only after it has sent the new list and that list could be decoded. Then from t plus one refresh period, one turn of the loop and the bound of two Updates on, every public key in force (and every JWK in force) was received after the change; and a verification called later than that plus the time of a call plus the cache time succeeds only if the token of a request with the same cache key was validated after the change against a key received after the change. The same bound holds for a change of the policies. If the changed list cannot be decoded the bound is false: the fetch fails once, its ETag is kept, all later Updates succeed, and the key that is gone stays in force.", "quantifier": "all interleavings of the three loops with verification calls, downloads and each other; all times, all key lists, key sets and tokens", "why_tests_cant": "a bound over all schedules and all clocks of three loops running together", "anchors": ["authorizerd.go:Start", "pubkey/daemon.go:Start", "pubkey/daemon.go:Update", "jwk/daemon.go:Start", "policy/daemon.go:Start", "authorizerd.go:authorize"]}
{"id": "C89", "title": "Updates come to an end", "statement": "Every part of a refresh takes a bounded number of steps: a call of FetchWithRetry sends at most its attempts plus one requests and takes at most two steps for each and two more, the simplification of a policy two for each assertion and one, a goroutine of the policy Update one for the download and two for each cached assertion and one to return, an update of the public keys one step for each key stored and each key visited besides four, an Update of the JWK sets exactly one for each URL and two, Init at most six. And whatever has not returned can always take a next step: a request that was sent can take any answer, everything else goes on by itself, also in a goroutine whose Update has already returned because its context ended; so no goroutine of a refresh waits for ever unless a server never answers.", "quantifier": "all schedules of any number of calls, all answers of the servers, all documents, key lists and key sets", "why_tests_cant": "termination and absence of a deadlock under all schedules", "anchors": ["policy/fetcher.go:FetchWithRetry", "policy/daemon.go:Update", "policy/daemon.go:simplifyAndCachePolicy", "pubkey/daemon.go:fetchAndCachePubKeyEntries", "jwk/daemon.go:Update", "authorizerd.go:Init"]}
{"id": "C90", "title": "When a policy expires", "statement": "The expired hook of the policy cache works for exactly the entries found expired: each starts at most one refresh, by the fetcher of the domain its role begins with (the text before the first \":role.\"), into the cache in use by then; the role comes from a properly signed document that was downloaded. If that domain is not configured the refresh calls a method of a nil fetcher and the whole process ends; this cannot happen while all roles in the documents begin with configured domains, but nothing checks that (witness: a properly signed document with one role of another domain). As long as no document an Update took has expired nothing is found expired and no hook runs, so what all policies of a domain deny is never granted; after an expiry it can be (witness). The same holds for ever if each cache is replaced before its policies expire: then no hook runs, and behind every accepted call stands a check against the policies of one Update, one properly signed document for each domain, none of which denies the request to any role of the token. Every cache has its own goroutine, and each goroutine filling a cache in place is the hook of exactly one domain. After the crash nothing happens any more.", "quantifier": "all schedules of finding, receiving and refreshing beside the whole system, all documents, all numbers of caches", "why_tests_cant": "needs expiry during operation in an unbounded interleaving of caches, hooks, Updates and requests", "anchors": ["policy/daemon.go:Update", "policy/daemon.go:New", "policy/daemon.go:fetchAndCachePolicy"]}
{"id": "C91", "title": "Grants go by policies that have not expired", "statement": "If each policy cache is replaced before its policies expire, then behind every accepted call stands a policy check, and each role it authorizes is allowed by a properly signed document that the Update of the cache in use had taken, and that, when the check began, had not expired, or for no longer than that Update took from getting the document to publishing the cache (unless the document had expired already when the Update took it, C16; no role in the documents of two domains). REFUTED without these premises: a refresh by the expired hook stores what the role held before together with the new assertions and with the new expiry, so a grant that only expired documents contain, and that the newest document no longer contains, is still given; and an expired document taken by fallback is used for ever.", "quantifier": "all schedules, all documents, all times and durations without overflow", "why_tests_cant": "needs an interleaving of expiry, Update, hook and request at chosen times", "anchors": ["policy/daemon.go:simplifyAndCachePolicy", "policy/daemon.go:Update", "policy/fetcher.go:FetchWithRetry", "policy/daemon.go:CheckPolicyRoles"]}
{"id": "C92", "title": "The public methods together with everything else", "statement": "Any number of calls of VerifyRoleToken, AuthorizeRoleToken, VerifyAccessToken, AuthorizeAccessToken, Verify, Authorize, VerifyRoleCert and AuthorizeRoleCert run together with all daemons, caches and servers. Seen from the rest they are calls of authorize for exactly the credentials handed to them: a token method accepts only if authorize accepted one of these, and returns its principal; it rejects only if authorize rejected all of them, the HTTP methods always with ErrInvalidCredentials; it panics only if authorize did. An accepted token is a valid one of this kind, or a cached result of one with the same cache key, and a downloaded, properly signed policy allows it. A direct method and the HTTP request carrying just that credential come to the same in every execution but for the error. VerifyRoleCert accepts only if a properly signed downloaded policy allows one role the certificates carry, without translation and never from the result cache; if no hook ran no policy of that Update denies any role carried in that domain (partial: with hooks, as in C71); it rejects only if CheckPolicy refused each domain carried. AuthorizeRoleCert always rejects. No method accepts anything before a policy has been downloaded. Whatever authorize works on or has answered was handed to it by a method called with this credential.", "quantifier": "all schedules of any number of calls of all methods with all goroutines of the system, all credentials, requests, certificates, documents, times", "why_tests_cant": "quantifies over interleavings of callers with refreshes of policies, keys and caches, and over all requests", "anchors": ["authorizerd.go:VerifyRoleToken", "authorizerd.go:VerifyAccessToken", "authorizerd.go:Verify", "authorizerd.go:Authorize", "authorizerd.go:VerifyRoleCert", "authorizerd.go:AuthorizeRoleCert", "authorizerd.go:initAuthorizers"]}
{"id": "C93", "title": "Whoever is entitled gets in", "statement": "A call of authorize is refused only if action or resource is empty, if the token was not valid by the keys held when it was examined, if the translator refused, or if the policy check did. A policy check that is not cancelled, on the cache of an Update whose documents have not expired (and are tame as in C71), which no expired hook was started on, gives exactly the verdict of these documents: it succeeds, with exactly the roles of the token they allow, if they deny none of its roles and allow one; it returns ErrDenyByPolicy if and only if they deny one; ErrNoMatch if they neither deny nor allow any; it never panics. Hence a call with a valid token, made after the first successful Update, for a request those documents allow to one role of the token and deny to none, is accepted, whatever else goes on; a method of the public API is not refused while one credential handed to it is so entitled. The same holds in the system with the expired hook if each cache is replaced before its policies expire.", "quantifier": "all schedules, all documents, tokens, requests, configurations and times", "why_tests_cant": "completeness over every interleaving with refreshes and over every token and policy cannot be sampled", "anchors": ["authorizerd.go:authorize", "policy/daemon.go:CheckPolicyRoles", "policy/daemon.go:Update", "role/processor.go:ParseAndValidateRoleToken", "access/processor.go:ParseAndValidateOAuth2AccessToken"]}
{"id": "C94", "title": "Every failed refresh is reported, and nothing else", "statement": "In the running authorizer, with all daemons on one clock and any servers: what has come out of the channel of the policy daemon or of the public key daemon, while it runs, is exactly the errors of those of its Updates that failed, each once, in the order of the Updates, each headed \"error update policy: \" or \"error update pubkey: \"; at most the last one is still to come. When it has been stopped all of them have come out, and then the error of the context, which was really cancelled with it, and nothing else. The JWK daemon does the same except that errors in a row may come out as one text, and what it had kept comes out with the error of the context. As long as all Updates succeed nothing comes out of a daemon that has not been stopped.", "quantifier": "all schedules of the three daemons with the whole system, all servers, all numbers of refreshes and failures", "why_tests_cant": "needs all interleavings of failures, retries, ticks and a reader that may stall", "anchors": ["policy/daemon.go:Start", "pubkey/daemon.go:Start", "jwk/daemon.go:Start", "authorizerd.go:Start"]}
{"id": "C95", "title": "What the user of Start reads, and what its end stops", "statement": "Start's goroutine, the three daemons, the caches, the servers and all calls run together. Everything sent on the channel Start returns is a report of a started daemon, headed \"update pubkey error: \", \"update policy error: \" or \"update jwk error: \", and at the very end the error of the context. The reports of the policy and of the key daemon are the errors of their failed Updates, in order, each once, none skipped, then at most the error of the context; those of the JWK daemon the same with errors in a row joined. While it runs, whenever nothing is under way, the user has read all of them. If no Update failed and the context has not ended, nothing has been sent. The result cache is emptied when the channel is closed, and never before the context ended. Once a daemon has ended (or if it was never started) it begins no Update, and the policies, public keys or key sets it looks after are never replaced. It is not so that the authorizer stops accepting then: a call made after everything has ended is accepted by what was loaded, and its result is cached again.", "quantifier": "all schedules of all goroutines, all servers, all contexts, any number of failures", "why_tests_cant": "needs all interleavings of three daemons, their failures, the forwarding goroutine, a slow reader and the end of the context", "anchors": ["authorizerd.go:Start", "policy/daemon.go:Start", "pubkey/daemon.go:Start", "jwk/daemon.go:Start"]}
{"id": "C96", "title": "New grants take effect within a bound", "statement": "The policies at the server change so that they grant a request (an allow for one of the token's roles in a configured domain matching action and resource, a deny for none; conflict-free, unexpired, no role in two domains), and from then on the server speaks of such policies only. A call made later than the change by a refresh period of the policy daemon, a turn of its loop and an Update - with Updates that succeed, a loop that is not stopped and is read from - and whose token is valid when it is looked at is accepted, whatever the authorizer held before and however the calls, checks, fetches and publications interleave. The cache of results adds nothing to the bound, since refusals are not cached. The same with all three daemons running, and with the expired hook in the system if each cache is replaced before its policies expire.", "quantifier": "all schedules of all goroutines and of the clock, all earlier states of caches and servers, all policies and requests", "why_tests_cant": "needs a change at the server at every point of every interleaving of fetch, cache fill, publication and concurrent calls, and a bound over all timings", "anchors": ["policy/daemon.go:Start", "policy/daemon.go:Update", "policy/daemon.go:CheckPolicyRoles", "authorizerd.go:authorize"]}
{"id": "C97", "title": "New keys are in force within a bound", "statement": "Athenz starts to publish a key: every list of public keys (every JWK set of its URL) received from then on contains it. Later than the change by a refresh period of the daemon of those keys, a turn of its loop and an Update - with Updates that succeed, a loop that is not stopped and is read from, and lists that can be decoded - the key is in force and stays in force, however the fetches, stores and sweeps of overlapping runs interleave with lookups. A token signed by the new key is valid from then on, and a call made with it is accepted if the policies the server has since the change grant it. Without the condition on decoding it is false: the ETag of an undecodable list is remembered, later Updates succeed with 'not modified', and the new key is never in force.", "quantifier": "all schedules of all goroutines, of the three daemons and of the clock, all earlier states of the key maps and caches, all key lists, sets, tokens and policies", "why_tests_cant": "needs the key to be published at every point of every interleaving of concurrent refreshes, sweeps, lookups and calls, and a bound over all timings", "anchors": ["pubkey/daemon.go:Start", "pubkey/daemon.go:Update", "pubkey/daemon.go:fetchPubKeyEntries", "jwk/daemon.go:Start", "jwk/daemon.go:Update", "authorizerd.go:authorize"]}
{"id": "C98", "title": "An outage of Athenz takes nothing away", "statement": "From some moment on every request to Athenz fails, is answered with an error status, or with a page that is no JSON. If at that moment no Update of the policies is under way and no list of ZTS keys is being applied, then: the tokens that are valid are the same as by the keys held at that moment, but for the time; a policy fetch returns no policy but the copy its fetcher held; no fetch and no run of the key daemon panics; and a call made during the outage is accepted if the policies held at its beginning grant it, have not expired and are conflict-free, and the token is valid by the keys of that moment, however many refreshes are tried in vain and however the caches are replaced meanwhile (no expired hook started on the cache the call is checked by; and with the hook in the system, if each cache is replaced before its policies expire). A policy Update that cannot get the policy of one domain publishes no cache and leaves the one in use as it is, whatever its other goroutines got. The limit: a policy that expires during the outage, for which requests are then refused, is put in force again by the next failed refresh, expired as it is (witness).", "quantifier": "all schedules of all goroutines before and during the outage, all failures, all tokens, keys and policies, any length of the outage", "why_tests_cant": "needs every interleaving of failing key, JWK and policy refreshes with retries, fallbacks, cache replacements and calls", "anchors": ["policy/fetcher.go:Fetch", "policy/fetcher.go:FetchWithRetry", "policy/daemon.go:Update", "policy/daemon.go:fetchAndCachePolicy", "pubkey/daemon.go:Update", "pubkey/daemon.go:fetchPubKeyEntries", "jwk/daemon.go:Update", "authorizerd.go:authorize"]}
{"id": "C99", "title": "Policy checks do not race with updates and see whole caches", "statement": "By the letter of the Go memory model, where an ordinary read may observe anything it is not ordered with: a policy check (CheckPolicyRoles with its goroutines per role) and GetPolicyCache take part in no data race with Updates, fetches, expired hooks or each other. The cache they find is never a nil interface, and it holds, for every configured domain, all that the Update which published it had written; or it is the empty cache of New.", "quantifier": "all executions allowed by the memory model, any number of goroutines calling Update, checking, fetching and running hooks, at any moment", "why_tests_cant": "the race detector sees only the interleavings that happen, and memory reorderings that the memory model allows may never show on the hardware of the tests", "anchors": ["policy/daemon.go:Update", "policy/daemon.go:CheckPolicyRoles", "policy/daemon.go:GetPolicyCache"]}
{"id": "C100", "title": "Data races of the policy daemon", "statement": "The daemon as a whole is meant to be free of data races. It is not: the nil tests of policyCache in Fetch and FetchWithRetry and the read of rolePolicies in the expired hook are ordinary reads of words that others store atomically. Two fetches of one domain (an Update whose context ended leaves its fetch running) race, and by the memory model one of them may dereference nil; a hook races with the swap of Update, and by the memory model may fill a nil cache (witnesses). What holds: every data race of every execution is at one of these reads, or at the read of rolePolicies in the debug log of Update, or is the read of the interface behind a pointer read with a race; caches, copies and checks do not race. There is no data race at all if one goroutine calls Update, none of its calls is cancelled, and no hook has run. What a fetcher reads through its pointer is always whole. nil is dereferenced only if no copy was stored before, so not after a published Update, and never by a hook.", "quantifier": "all executions allowed by the memory model, any number of goroutines, Updates and checks", "why_tests_cant": "needs all interleavings and all reorderings that the memory model allows", "anchors": ["policy/fetcher.go:Fetch", "policy/fetcher.go:FetchWithRetry", "policy/daemon.go:Update"]}
{"id": "C101", "title": "What can crash the process", "statement": "In every execution of the whole system a goroutine panics if and only if one of these happened: Athenz answered 304 to a policy request of a fetcher without a copy or to a key request that named no ETag; Athenz answered JSON null in the place of a policy document, of the key list, or of a key; a document accepted by the signature checks has null in the place of the policies, of a policy or of an assertion; a token was presented of a kind that is switched off; the translator panicked; an expired-hook ran for a role of a domain that is not configured. Each cause does crash (one witness each). A policy check never panics. So the process stays up if answers have no null, 304 only answers an ETag, roles belong to configured domains, and the library is used as configured; whatever else is answered and whatever tokens are presented.", "quantifier": "all executions of the system with hooks: any number of calls, checks, Updates, fetches, key runs, any interleaving, any answers", "why_tests_cant": "absence of panics for all answers, tokens, policies and interleavings", "anchors": ["policy/fetcher.go:Fetch", "policy/daemon.go:simplifyAndCachePolicy", "policy/daemon.go:NewDaemon", "pubkey/daemon.go:fetchPubKeyEntries", "authorizerd.go:authorize"]}
{"id": "C102", "title": "Calls with different cache keys do not influence each other", "statement": "Take any execution of the whole system and leave out all authorize calls whose cache key differs from that of one call (their steps, their policy checks, and the removal of their expired results). What is left is again an execution; every remaining call goes through the same steps and returns the same result, and the keys, policies, fetchers, Updates, hooks and the clock are the same at its end. No call makes a step of a call with another key possible or impossible. Without any calls the daemons do exactly the same. Calls with the same key do matter: a call can be answered from the cache by what the other stored (witness).", "quantifier": "all executions of the system with hooks, any number of concurrent calls, any interleaving", "why_tests_cant": "compares every execution with the one without the other calls", "anchors": ["authorizerd.go:authorize", "policy/daemon.go:CheckPolicyRoles"]}
{"id": "C103", "title": "A call waits for nobody", "statement": "In every reachable state of the whole system a call of authorize that has begun and not returned can take a step of its own, whatever Athenz, the daemons and the other calls are doing or not doing. In every execution it takes at most 11 + 7 * (roles of its token) + 2 * (assertions it reads) own steps, those of the goroutines of its policy check included, before its check is made at most 5. From every state it can be brought to its end by its own steps alone.", "quantifier": "all reachable states and executions, any number of concurrent calls, refreshes, hanging downloads", "why_tests_cant": "absence of waiting in all states; a bound over all interleavings", "anchors": ["authorizerd.go:authorize", "policy/daemon.go:CheckPolicyRoles"]}
{"id": "C104", "title": "A role that has expired is fetched again", "statement": "When the policy of a role in the cache in use expires, the expired hook downloads the document again, so that a request the served document allows is granted also then. (False for the cache Init made: its purge goroutine ends when Init returns, and until the next Update publishes, no hook runs, the entries only go, and a check authorizes only roles that were alive when the goroutine ended.)", "quantifier": "all executions of the system with the hooks; every continuation without a publication", "why_tests_cant": "absence of any later refresh in all continuations; needs the context of Init to end while the process goes on", "anchors": ["authorizerd.go:Init", "policy/daemon.go:Update"]}
{"id": "C105", "title": "When its context ends, Update stops", "statement": "Once the context of policyd.Update has ended while domains are left to be fetched, no further goroutine is started, Update returns the context's error at its next own step without waiting for those running, and the cache in use stays. A goroutine reading a document looks at no further assertion once the context has ended, and a document with assertions left unread is not cached. In the whole system such an Update publishes no cache, before or after, and its only possible result is the context's error, whatever the other goroutines, requests and hooks do.", "quantifier": "all interleavings, any moment of cancellation, any number of domains, policies and assertions", "why_tests_cant": "cancellation at every moment of every interleaving", "anchors": ["policy/daemon.go:Update", "policy/daemon.go:simplifyAndCachePolicy"]}
{"id": "C106", "title": "A request that is denied stays denied whatever query is added", "statement": "The verdict on a token, method and path does not get better for the sender by changing the query. REFUTED when mapping rules are configured: a rule applies only if the request has exactly its query parameters, and if no rule applies the method and path go to the policy check as they are. So a parameter that no rule names switches all rules off, whatever they are there is such a parameter, and in the whole system a request that is denied is granted with '&x' added. Without mapping rules the query has no influence at all on the verdict or on the cache.", "quantifier": "all rule sets, domains, methods, paths, well formed queries, configurations, caches and environments", "why_tests_cant": "for every rule set there is a query that passes it by; tests try the queries the rules name", "anchors": ["translator.go:Translate", "authorizerd.go:authorize"]}
{"id": "C107", "title": "More denials, fewer grants; more allows, more grants", "statement": "Take any two Updates, the second with documents that hold all assertions of the first and beyond them only denials: whatever a check grants after the second it grants after the first, to the same roles. If the second holds beyond them only allows, whatever is granted after the first is granted after the second, at least to the same roles. The verdict and the authorized roles do not depend on the order or repetition of the roles presented; roles of which no policy speaks change nothing; presenting only some of the roles, among them an authorized one, is granted to the authorized ones among them. REFUTED for documents in which a role or an action contains a comma: adding a denial can grant, adding an allow can take away. (Conditions on documents as in C12.)", "quantifier": "all documents, all schedules of both Updates and of the checks, all requests, role lists and times", "why_tests_cant": "compares pairs of arbitrary documents under arbitrary schedules", "anchors": ["policy/daemon.go:simplifyAndCachePolicy", "policy/daemon.go:Update", "policy/daemon.go:CheckPolicyRoles"]}
{"id": "C108", "title": "The HTTP methods and the methods given a token agree", "statement": "Authorize succeeds on an HTTP request just if AuthorizeRoleToken succeeds on its role token header or AuthorizeAccessToken on its bearer token and the leaf certificate of its connection, with the same action and resource. PARTIAL: proved for requests without a query and for authorizers without mapping rules, where with one kind of token enabled the principal and the cache are the same too, and only the error differs. REFUTED with a query and mapping rules: the methods given a token look for a rule without a query, so the same token, action and resource is refused there and granted over HTTP.", "quantifier": "all HTTP requests, configurations, cache contents, keys, policies, moments", "why_tests_cant": "two families of methods over all tokens, headers, configurations and cache contents", "anchors": ["authorizerd.go:Authorize", "authorizerd.go:initAuthorizers", "authorizerd.go:AuthorizeRoleToken", "authorizerd.go:AuthorizeAccessToken", "authorizerd.go:authorize"]}
{"id": "C109", "title": "Nothing is granted before the policies of all domains are there", "statement": "With policy checks on, in the whole system with its expired hook: behind every call that is let in stands a policy check that passed when some Update had put a cache into use, having got a properly signed document for every configured domain. So before the first successful Update every call is refused, whatever token it shows; and a single domain for which Athenz has never given out a properly signed document keeps all requests out, those of the other domains too. The same holds for all public methods, VerifyRoleCert included.", "quantifier": "all interleavings, tokens, server behaviours, configured domains, moments", "why_tests_cant": "a call may run concurrently with the first Update, hooks and other calls in any order", "anchors": ["policy/daemon.go:New", "policy/daemon.go:Update", "policy/daemon.go:CheckPolicyRoles", "authorizerd.go:authorize", "authorizerd.go:VerifyRoleCert"]}
{"id": "C110", "title": "A lagging clock moves every deadline by at most the lag", "statement": "The code reads time from a copy refreshed in the background. If that copy is never ahead of the true time and at most dl behind: a role token is accepted at most dl after its expiry and never refused as expired while valid; the same for a signed policy document; a cache entry with life time d is returned up to d-dl and never after d+dl; and every acceptance in any history of concurrent calls rests on a token examined at most dl after its expiry, whose verdict was stored at most the cache expiry plus dl before the answer.", "quantifier": "all lags, tokens, documents, interleavings of calls, ticks and purges", "why_tests_cant": "tests run with a copy that is nearly exact and do not vary its refresh against the calls", "anchors": ["role/token.go:Expired", "policy/signed_policy.go:Verify", "authorizerd.go:authorize"]}
{"id": "C111", "title": "An entry of a cache is not lost before its time", "statement": "The caches of policies and verdicts look an entry up and, if it has expired, delete its key, in two steps. Whatever is stored meanwhile: every answer of the cache was stored under that key no longer ago than its life time. An entry stored when nobody is about to delete the key is found until its life time ends; nothing is lost in a cache in which nothing has expired. But an entry stored while somebody is about to delete the key (as the expired hook does) can be deleted at once, and with it the denials of a role: a request that the fresh policy denies is then granted.", "quantifier": "all interleavings of look-ups, deletions, stores and clock steps by any number of goroutines", "why_tests_cant": "the window is between two operations inside one library call", "anchors": ["policy/daemon.go:Update", "policy/daemon.go:simplifyAndCachePolicy", "policy/daemon.go:CheckPolicyRoles", "authorizerd.go:authorize"]}
{"id": "C112", "title": "Who is let in, in true time, with two clocks and a cache that loses entries", "statement": "Role tokens and the cache of verdicts go by a copy of the system clock that is at most some lag behind; access tokens go by the system clock itself; and the cache may lose any entry at any time. Then a request that is accepted is still backed: some call with the same cache key had its token examined, its request granted by the policies, and its verdict kept, in that order, and the answer came no later than the cache expiry plus the lag after the verdict was kept. When it was examined, a role token was at most the lag past its expiry, and an access token was within its dates by the system clock. Nobody is refused because of the cache: a refused call had no action or resource, or its own token was found bad when examined, or the translation or the policies refused its own request; and no role token is refused as expired before its expiry in true time.", "quantifier": "all numbers of concurrent calls, interleavings, clock readings within the lag, losses of entries, tokens, keys, policies, settings with a positive cache expiry", "why_tests_cant": "tests replace the clock or run with one that is exact, and never lose an entry between two steps of a call", "anchors": ["authorizerd.go:authorize", "role/token.go:Expired", "access/claim.go:Valid", "access/processor.go:ParseAndValidateOAuth2AccessToken"]}
{"id": "C113", "title": "How policy documents are arranged does not matter", "statement": "Two sets of documents that hold the same assertions give the same verdicts to every check, for the same roles: the order and repetition of assertions, their distribution over policies and over the documents of different domains, and the case of the letters of actions, resources and effects do not count. This holds for documents whose roles and actions have no commas, whose roles each appear in one document, and in which opposite assertions of the same words are not put into different policies. Without these conditions it fails: opposite assertions are denied when in one policy and may be granted when in two, and with commas a change of the order changes the verdict.", "quantifier": "all documents, numbers of domains, schedules of Update and of the check, requests, roles", "why_tests_cant": "tests use a few documents in one arrangement; the arrangement decides which goroutines run and in which order maps are filled", "anchors": ["policy/daemon.go:simplifyAndCachePolicy", "policy/daemon.go:CheckPolicyRoles", "policy/assertion.go:NewAssertion"]}
{"id": "C114", "title": "What users do with the map of GetPolicyCache", "statement": "The map GetPolicyCache returns is the user's own, but its lists and assertions are those of the cache. Users who read, delete and move entries of their map and cut its slices leave every later check as it would be without them, for every interleaving with the daemon adding assertions and dropping roles. The same holds for users who write, append or set fields, as long as the cell or assertion written is not in a list in the cache at that moment. Without this condition it fails: an assignment to an element or to an exported field turns a denial into a grant, and even an append, which leaves the caller's view of the old list alone, may replace an assertion added since and grant what no policy allows. A write to a cached cell or assertion is always felt: what the cache then holds there is the user's. The map itself stays the user's: for users who do not write and cut slices within their length, each step changes what the user sees as it should and the daemon's steps change nothing; of a slice cut up to its capacity, the daemon's next addition becomes part.", "quantifier": "all sequences of steps of the daemon and of users, numbers of maps, roles, assertions, capacities chosen by append", "why_tests_cant": "tests read the map at most; whether append shares memory depends on capacities and on what the daemon added in between", "anchors": ["authorizerd.go:GetPolicyCache", "policy/daemon.go:GetPolicyCache", "policy/daemon.go:simplifyAndCachePolicy", "policy/daemon.go:CheckPolicyRoles"]}
