{"id": "C01", "title": "Domain blocklist matches exactly the names its rules cover", "statement": "A domain-format blocklist built from any list of well-formed rules reports a match for a query name exactly when some rule in the list covers that name: 'example.com' covers only that name, '.example.com' covers it and everything below it, '*.example.com' covers only what is below it. The order of the rules, duplicates, and the case of letters (in rules and queries) make no difference, and in domain-subdomain mode every plain rule behaves as if it had a leading dot.", "quantifier": "all lists of rules (any length, any labels, any order) and all query names", "why_tests_cant": "The trie is built incrementally with node sharing and copy-on-write; whether an earlier rule can hide or widen a later one depends on arbitrary combinations and orders of rules, an unbounded space.", "anchors": ["blocklistdb-domain.go: newDomainDB, isSharedShape, (*DomainDB).Match, matchedDomainParts"]}
{"id": "C02", "title": "Domain blocklist load errors and reported rule", "statement": "Loading a domain blocklist fails exactly when some rule contains a '*' anywhere other than as its complete first label; it never fails or silently changes meaning otherwise. When a name matches, the reported rule is one that covers the name, in the same '.', '*.' or plain form as a rule of the list.", "quantifier": "all lists of rule strings and all query names", "why_tests_cant": "Needs every position of the wildcard and every combination of rules.", "anchors": ["blocklistdb-domain.go: newDomainDB, (*DomainDB).Match, matchedDomainParts"]}
{"id": "C03", "title": "CIDR list membership", "statement": "A CIDR list loads exactly when every line is blank, a comment, an address or a network, and answers 'match' for an IP exactly when the IP (an IPv4-mapped one as IPv4) lies in the network of at least one line, for IPv4 and IPv6, independent of insertion order, duplicates and overlapping prefixes; the reported rule is such a network containing the address. The network of a line is the one written in it, with exactly two exceptions: a bare IPv6 address written with a dotted quad counts as a /32, and a network a/p of IPv4-mapped IPv6 addresses counts as 0.0.0.0/min(p,32).", "quantifier": "all lists of networks, all addresses, all insertion orders", "why_tests_cant": "Overlap and subsumption between prefixes gives exponentially many tries; only induction over insertions covers all.", "anchors": ["ip-blocklist-trie.go: add, hasIP, bit", "cidr-db.go: NewCidrDB, Match"]}
{"id": "C04", "title": "Memory cache is a bounded, most-recently-used map", "statement": "After any sequence of stores, lookups, evictions and flushes, a lookup in the in-memory cache returns exactly the last value stored for that query key provided the key was not removed or pushed out; the number of entries never exceeds the configured capacity (unlimited if 0 or negative); and the entry pushed out is always the one least recently stored or read.", "quantifier": "all finite histories of operations, all capacities, all keys (including keys whose hashes collide)", "why_tests_cant": "Eviction order depends on the whole history.", "anchors": ["lru-cache.go: addKey, insert, unlink, find, touch, delete, get, resize, reset, deleteFunc"]}
{"id": "C05", "title": "A cache hit is never an answer to a different question", "statement": "Two queries share a memory-cache entry only if they agree on question name (ignoring case), type, class, DO bit, CD bit and client-subnet data; in particular a hash collision between two different keys never returns the other key's answer.", "quantifier": "all pairs of queries, all hash functions", "why_tests_cant": "Collisions and key confusions are rare inputs; only a proof of injectivity and of the key re-check covers them.", "anchors": ["lru-cache.go: lruKeyFromQuery, find, hash", "cache-blob.go: matchesKey"]}
{"id": "C06", "title": "Cached answers are aged and never served stale", "statement": "A reply served from cache carries the querier's own ID and question, every record TTL equals the stored TTL minus the whole seconds spent in the cache and is therefore at least 1 and never larger than what upstream sent; an answer is not served once any record's lifetime has elapsed or once its cache lifetime has passed; OPT pseudo-records are left alone.", "quantifier": "all stored messages, all store and lookup times, all queries", "why_tests_cant": "Ranges over all times and TTL values including 32-bit boundaries.", "anchors": ["cache.go: cacheAge, ageCachedAnswer", "cache-memory.go: Lookup", "cache-redis.go: Lookup"]}
{"id": "C07", "title": "Cache lifetime selection", "statement": "What upstream answered determines whether and how long it is cached: truncated answers are never cached; success, NXDOMAIN, REFUSED, NOTIMP and FORMERR are cached for the smallest record TTL (or the negative TTL if there are no records), SERVFAIL for at most min(negative TTL, 300s), any other rcode is not cached; a configured per-rcode maximum always caps the lifetime. Except for SERVFAIL the cached lifetime never exceeds the TTL of any record stored.", "quantifier": "all upstream answers and all option values", "why_tests_cant": "Ranges over all TTL combinations and option values.", "anchors": ["cache.go: Resolve, storeInCache, minTTL, NewCache"]}
{"id": "C08", "title": "Cache entry encoding and the on-disk cache file round-trip", "statement": "Encoding a cache entry into its compact form and reading it back yields the same key, timestamps, flags and message; saving the cache to a file and loading it into an empty cache of at least the same capacity restores every entry with the same recency order; malformed data is rejected without a crash.", "quantifier": "all entries, all cache contents, all byte strings", "why_tests_cant": "Field boundaries (lengths up to 65535, zero times) and arbitrary corrupt inputs.", "anchors": ["cache-blob.go: newCacheBlobFromWire, key, keyRegion, matchesKey, unixNano, nanoTime, toCacheBlob", "lru-cache.go: serialize, deserialize", "cache-memory.go: writeToFile, loadFromFile"]}
{"id": "C09", "title": "NXDOMAIN hardening only denies names under a cached NXDOMAIN", "statement": "With harden-below-NXDOMAIN, a query that is not itself in the cache is answered NXDOMAIN from the cache exactly if an ancestor of its name other than the root holds a live NXDOMAIN in the cache for the same type, class and options and no closer ancestor is cached; without the option only exact hits are used. The ancestors are the names that follow a dot; for names without escapes these are the proper ancestors in the domain tree, for names with escaped dots they include names that are not.", "quantifier": "all cache contents and query names", "why_tests_cant": "Depends on arbitrary label depth and cache content.", "anchors": ["cache.go: answerFromCache"]}
{"id": "C10", "title": "Answer shuffling is a permutation that moves only address records", "statement": "Random and round-robin answer shuffling return the same multiset of records, keep every record that is not A/AAAA in its position, and round-robin shifts address records cyclically so that over as many hits as there are addresses each address appears first once.", "quantifier": "all answers and all hit counts / random choices", "why_tests_cant": "Arbitrary interleavings of CNAMEs with addresses and arbitrary random permutations.", "anchors": ["cache.go: AnswerShuffleRandom, AnswerShuffleRoundRobin"]}
{"id": "C11", "title": "Redis cache keys and values", "statement": "Encoding an answer for redis and decoding it restores flag, timestamp (to the second) and message; anything too short, of another version or with a message that does not unpack is rejected; keys of two queries with at most one client-subnet option are equal exactly when the queries agree in name (ignoring case), class, type, CD, EDNS0 presence, DO and client subnet (two options each can be confused: shown separately). After any history of stores, background writes in any order, failures and deletions, a hit is an answer stored for the same query, aged from the second of its timestamp.", "quantifier": "all answers, byte strings and pairs of queries", "why_tests_cant": "Injectivity of a delimiter-joined key over arbitrary names.", "anchors": ["cache-redis.go: encodeCacheAnswer, decodeCacheAnswer, keyFromQuery"]}
{"id": "C12", "title": "Round-robin is exactly fair", "statement": "For any number of concurrent callers, after k*n+r queries through a round-robin group of n resolvers every resolver has been chosen k or k+1 times, and consecutive queries go to consecutive resolvers; a failed query is not retried.", "quantifier": "all group sizes, all schedules of concurrent callers", "why_tests_cant": "Schedules are unbounded.", "anchors": ["roundrobin.go: (*RoundRobin).Resolve"]}
{"id": "C13", "title": "Fail-rotate tries each resolver at most once per query and rotates once per failure", "statement": "A query through a fail-rotate group is sent to at most n resolvers, each a different one when no other query interferes, stops at the first success and returns it unchanged; the active resolver index always stays in range; a failure reported for a resolver that is no longer active does not move the active position, so any number of concurrent failures of the same resolver advance it exactly once.", "quantifier": "all group sizes, outcomes and interleavings of concurrent queries", "why_tests_cant": "Races between concurrent failures.", "anchors": ["failrotate.go: Resolve, current, errorFrom", "resolver.go: isSuccessResponse"]}
{"id": "C14", "title": "Fail-back prefers earlier resolvers again after the reset period", "statement": "A query through a fail-back group is sent to at most n resolvers and returns the first success; the active index stays in range; a failed resolver is only skipped while no reset happened; after a reset period without failures the first resolver is active again; with reset disabled every query starts at the first resolver.", "quantifier": "all group sizes, outcomes, interleavings of queries, failures and timer events", "why_tests_cant": "Races between queries, failure notifications and the timer.", "anchors": ["failback.go: Resolve, current, errorFrom, startResetTimer"]}
{"id": "C15", "title": "Random group never loses or invents resolvers", "statement": "Under any interleaving of queries, failures and reactivations, the resolvers currently eligible plus those waiting for reactivation are exactly the configured ones; a query only goes to configured resolvers, returns the first success, and fails only when none are left.", "quantifier": "all group sizes, random choices, schedules", "why_tests_cant": "Concurrency and randomness.", "anchors": ["random.go: Resolve, pick, deactivate, reactivateLater"]}
{"id": "C16", "title": "Load-balance tries every resolver at most once and succeeds if any would", "statement": "A query through a load-balance group is sent to pairwise different resolvers, at most n of them, until one succeeds; if any resolver would succeed the query succeeds whatever the random choices and measured latencies; otherwise an error or the last unsuccessful response is returned.", "quantifier": "all group sizes, weights, random choices and outcomes", "why_tests_cant": "Random picks and arbitrary latency statistics.", "anchors": ["loadbalance.go: Resolve, pick, updateOnSuccess, updateOnFailure"]}
{"id": "C17", "title": "Fastest returns the first usable response", "statement": "With the 'fastest' group, the reply is the first response (in arrival order) that is neither an error nor SERVFAIL; only if all fail is the last outcome returned; every resolver receives its own copy of the query exactly once.", "quantifier": "all arrival orders and outcomes", "why_tests_cant": "All arrival orders.", "anchors": ["fastest.go: Resolve"]}
{"id": "C18", "title": "Fastest-TCP only reorders", "statement": "The fastest-tcp resolver only touches the first 32 answer records of the query's address type, and leaves all others in their positions: with successful probes these become, with TTLs raised to the configured minimum, a rearrangement of the same records with the fastest first (in order of completion when all are waited for, otherwise keeping the order of the rest), except that, when not waiting for all and the fastest is neither the first nor the last of them, the fastest is duplicated and the last one lost (shown separately). With a failed or late probe, fewer than two such records or other query types the answer is upstream's.", "quantifier": "all answers, probe outcomes and options", "why_tests_cant": "All orders of probe completion.", "anchors": ["fastest-tcp.go: Resolve, probeAll, probeFastest, setTTL"]}
{"id": "C19", "title": "Rate limiter bounds requests per window and subnet", "statement": "With queries counted in the order in which they take the mutex and clock readings non-decreasing in that order, exactly the first N queries (N the configured number) from one client subnet in one time window reach the protected resolver; further ones are dropped or sent to the limit resolver; clients in other subnets or later windows are not affected. (Not so when clock readings are out of order at a window boundary, in the first window after 1970, or with a prefix longer than the address: shown separately.)", "quantifier": "all histories of queries from any clients at any (non-decreasing) times", "why_tests_cant": "Unbounded histories.", "anchors": ["rate-limiter.go: Resolve, NewRateLimiter"]}
{"id": "C20", "title": "Request de-duplication shares exactly one upstream query among identical questions", "statement": "While a query for a question is in progress, identical questions wait and receive a private copy of the same outcome with their own ID and question; at most one upstream query per question is in progress at any time; queries that differ in name (ignoring case), type, class, DO, CD or client subnet never share an answer (all-zero subnets of equal length count as the same in either family, those of length zero as none; the opcode does not count). No call hangs unless an upstream query for its question does.", "quantifier": "all schedules of concurrent queries", "why_tests_cant": "Interleavings of leaders and followers; key collisions.", "anchors": ["request-dedup.go: Resolve, requestDedupKey"]}
{"id": "C21", "title": "Pipelined upstream connections complete every request at most once and never cross answers", "statement": "For any interleaving of callers, writer, reader, timeouts, write errors and reconnects on one upstream connection: the IDs of the queries in flight are distinct, no request is ever completed twice (which would crash the process), the answer given to a caller arrived with the ID under which that caller's own query was sent, has the caller's original ID and the caller's question, and a request still in flight when the connection dies is failed.", "quantifier": "all interleavings of goroutine steps and all upstream behaviours", "why_tests_cant": "Races between reader, writer and callers.", "anchors": ["pipeline.go: Pipeline.Resolve, start, inFlightQueue.add/get/delete/drain, request.markDone, waitFor", "message.go: validateResponseQuestion"]}
{"id": "C22", "title": "DNS64 embeds IPv4 addresses per RFC 6052 and only when needed", "statement": "For each configured prefix length the synthesized IPv6 address contains the prefix, the complete IPv4 address in the RFC 6052 position, zero in the remaining octets and (for prefixes shorter than 96) a zero 'u' octet, so that the IPv4 address can be recovered exactly and distinct IPv4 addresses give distinct IPv6 addresses; AAAA records are synthesized only for AAAA queries without DO for which upstream has an answer without AAAA records and with A records, one per A record and prefix, carry that record's TTL and are owned by the name asked for (not by the A record's name when there is an alias: shown separately); otherwise upstream's answer is returned as it is.", "quantifier": "all prefixes, IPv4 addresses and upstream answers", "why_tests_cant": "2^32 addresses times prefixes, arbitrary answers.", "anchors": ["dns64.go: Resolve, synthesizeAAAA, synthesizeIPv6, parseDNS64Prefixes"]}
{"id": "C23", "title": "Padding hides lengths in whole blocks", "statement": "A padded query is a multiple of 128 octets; a padded response is a multiple of 468 octets unless that exceeds the client's advertised size, in which case it is exactly that size (or left alone if already larger); responses to clients without EDNS0 get no padding; the padding buffer is never over-run, and the functions panic only if a message carries an option with the code of padding that is not a padding option.", "quantifier": "all message lengths and advertised sizes", "why_tests_cant": "All lengths and size limits.", "anchors": ["padding.go: padAnswer, padQuery, stripPadding"]}
{"id": "C24", "title": "Client-subnet modification", "statement": "'delete' removes every client-subnet option and nothing else; 'add' leaves exactly one, built from the configured address or the client's, truncated to the configured prefix; 'add-if-missing' never changes an existing one; 'privacy' leaves no address bits beyond the configured prefix in any client-subnet option and changes nothing else.", "quantifier": "all queries, clients and option values", "why_tests_cant": "All option lists and addresses.", "anchors": ["ecs-modifier.go: ECSModifierDelete, ECSModifierAdd, ECSModifierAddIfMissing, ECSModifierPrivacy"]}
{"id": "C25", "title": "EDNS0 option modification", "statement": "'delete' removes exactly the options with the listed codes; 'add' replaces options with the given code by exactly one with the given data; all other options and records keep their order.", "quantifier": "all queries and codes", "why_tests_cant": "All option lists.", "anchors": ["edns0-modifier.go: EDNS0ModifierDelete, EDNS0ModifierAdd"]}
{"id": "C26", "title": "Router sends each query to the first matching route", "statement": "A query goes to exactly one resolver: that of the first route in configuration order all of whose conditions hold (or, for inverted routes, do not all hold); if none matches an error is returned. Adding a route after a matching one never changes the result.", "quantifier": "all route lists and queries", "why_tests_cant": "All combinations of conditions.", "anchors": ["router.go: Resolve", "route.go: match, Invert, NewRoute"]}
{"id": "C27", "title": "Time-of-day route conditions", "statement": "'after' and 'before' compare the minute of the day: a route with both is open exactly for after <= now < before, at every minute of the day (so never for an interval over midnight); parsing accepts exactly hour or hour:minute (decimal, optional sign, any leading zeros) with 0..23 and 0..59.", "quantifier": "all times of day and all strings", "why_tests_cant": "All strings and boundary minutes.", "anchors": ["route.go: parseTimeOfDay, isBefore, isAfter"]}
{"id": "C28", "title": "Blocklist precedence", "statement": "A query matching the allowlist is never blocked; a query matching only the blocklist never reaches the upstream resolver and is answered by the blocklist-resolver, a spoofed address/PTR answer or NXDOMAIN; any other query is forwarded unchanged; replies carry the query's ID and question.", "quantifier": "all queries, lists and resolvers", "why_tests_cant": "All combinations of lists and resolvers.", "anchors": ["blocklist.go: Resolve", "blocklistdb-multi.go: Match"]}
{"id": "C29", "title": "Blocked addresses never reach the client", "statement": "With a response IP blocklist and no blocklist-resolver, no successful (NOERROR) reply contains an A/AAAA record, in any section, whose address is on the list (or, inverted, off the list). Without filtering a successful response with such a record is replaced as a whole (blocklist-resolver or NXDOMAIN with the extended error) and others pass unchanged; in filter mode exactly those records are removed, and the response is replaced if no answer record is left. Errors, drops and responses with other codes pass unchanged.", "quantifier": "all responses and lists", "why_tests_cant": "All responses and lists.", "anchors": ["response-blocklist-ip.go: Resolve, blockIfMatch, filterMatch, filterRR"]}
{"id": "C30", "title": "Blocked names never reach the client", "statement": "With a response name blocklist, a response in which some record of any section has a text (target of CNAME, MX, NS, PTR, SRV, first name of SOA, TXT strings joined by blanks, SVCB/HTTPS target followed by its parameters) on the list (or, inverted, off it) is replaced by NXDOMAIN with the extended error or the blocklist-resolver's answer; others pass unchanged.", "quantifier": "all responses and lists", "why_tests_cant": "All responses.", "anchors": ["response-blocklist-name.go: Resolve, blockIfMatch"]}
{"id": "C31", "title": "Client blocklist", "statement": "A query from a listed client IP (or first ECS address if configured and present) never reaches the upstream resolver: it goes to the blocklist-resolver or is refused; all other queries, and those without an address, go upstream unchanged.", "quantifier": "all clients, queries, lists", "why_tests_cant": "All combinations.", "anchors": ["client-blocklist.go: Resolve"]}
{"id": "C32", "title": "Listener access control", "statement": "On the plain, DoT, DTLS, DoH and DoQ listeners with allowed networks configured, a query from an address outside all of them is never passed to the resolver, and one from inside is; without networks everybody is allowed. The ODoH target does not check oblivious queries at all (shown as a refutation of the claim for every listener).", "quantifier": "all clients, networks and listeners", "why_tests_cant": "All addresses, incl. IPv4-mapped ones.", "anchors": ["dnslistener.go: listenHandler, isAllowed", "dohlistener.go: parseAndRespond", "doqlistener.go: handleConnection, handleStream", "odohlistener.go: ODoHqueryHandler"]}
{"id": "C33", "title": "Listeners map every resolver outcome to a well-defined reply without crashing", "statement": "For every query with a question and every resolver outcome (answer, error, drop) each listener replies with the resolver's answer, SERVFAIL for an error, or nothing/closes/403 for a drop; queries without a question never reach the resolver. The one outcome that does not end in a defined reply is a drop on the DoQ listener, which crashes the process (shown as a refutation of 'no outcome crashes the process').", "quantifier": "all queries and outcomes on every listener type", "why_tests_cant": "Cross product of outcomes and listeners.", "anchors": ["dnslistener.go: listenHandler", "dohlistener.go: parseAndRespond", "doqlistener.go: handleStream", "odohlistener.go: ODoHqueryHandler", "net-resolver.go: Write"]}
{"id": "C34", "title": "Forwarded client addresses are only trusted from the proxy", "statement": "The DoH listener attributes a request to the peer address unless the peer is inside the configured proxy network and the last X-Forwarded-For entry is a valid, non-loopback address; earlier, client-controlled entries never influence the result.", "quantifier": "all headers and peers", "why_tests_cant": "All header strings.", "anchors": ["dohlistener.go: extractClientAddress"]}
{"id": "C35", "title": "Atomic file replacement survives crashes and errors", "statement": "Whatever step of a cache-file save fails or is the last before a crash, the target file afterwards contains either its complete previous content or the complete new content, never a mixture or truncation; its permission bits are preserved; on a reported error the previous content is still there and no temp file is left behind (unless removal failed); cleanup of stale temp files only removes old regular files with the temp prefix.", "quantifier": "all contents, all failure points and crash points", "why_tests_cant": "All crash points.", "anchors": ["atomicfile.go: writeFileAtomic, removeStaleTempFiles"]}
{"id": "C36", "title": "List loaders keep the last good list on failure", "statement": "With allow-failure, after any history of successful and failed loads a failed load yields the most recent successfully loaded rules without error (empty if none); without it the failure is reported. The on-disk list cache is replaced only after a successful download and is used only for the first load.", "quantifier": "all histories of load outcomes", "why_tests_cant": "Unbounded histories.", "anchors": ["blocklistloader-http.go: Load, loadFromDisk, writeToDisk", "blocklistloader-local.go: Load"]}
{"id": "C37", "title": "MAC address parsing", "statement": "A MAC rule is accepted exactly when it is six two-digit hex groups joined by ':', parsing is the inverse of formatting (in either letter case), a query matches exactly when its MAC option data equals a listed address, and the reported rule is that address in hex.", "quantifier": "all strings and queries", "why_tests_cant": "All strings.", "anchors": ["mac-db.go: parseMAC, NewMACDB, Match"]}
{"id": "C38", "title": "Hosts-format blocklist", "statement": "A hosts-format list maps every listed name to the addresses given for it (per family, in order, at most eleven per family, nil for unspecified or invalid addresses) and each address to its names; unlisted names and addresses do not match.", "quantifier": "all hosts files and queries", "why_tests_cant": "All files.", "anchors": ["blocklistdb-hosts.go: NewHostsDB, Match"]}
{"id": "C39", "title": "TTL modifier bounds", "statement": "Every non-OPT record in a response passing the TTL modifier has a TTL within [min,max] (max 0 meaning unlimited) when min<=max; a selection function makes all TTLs equal to the lowest, highest, average, first or last TTL of the response before the limits are applied; OPT records, order and all other fields are unchanged.", "quantifier": "all responses and options", "why_tests_cant": "All TTL values.", "anchors": ["ttl-modifier.go: Resolve, NewTTLModifier, TTLSelect*"]}
{"id": "C40", "title": "Upstream responses must echo the question", "statement": "Every upstream client returns a message only if its first question equals the query's first question (ignoring case of the name); a response without question is rejected when the query had one.", "quantifier": "all queries and responses", "why_tests_cant": "All pairs.", "anchors": ["message.go: validateResponseQuestion", "pipeline.go: waitFor", "dohclient.go: responseFromHTTP", "doqclient.go: Resolve"]}
{"id": "C41", "title": "Name replacement is invisible to the client", "statement": "Rewriting query names upstream applies all expressions in order, restores the client's original name in the question and in all answer records owned by the rewritten name, and leaves every other record and field, and queries whose name does not change, alone.", "quantifier": "all queries, rules and upstream answers", "why_tests_cant": "All names and answers.", "anchors": ["replace.go: Resolve"]}
{"id": "C42", "title": "Response minimization, collapse and truncation retry", "statement": "Minimizing keeps everything but the authority and additional records, of which none remain; collapsing keeps exactly the answer records of the query's type and class, in order and owned by the query name, or answers with the configured code if there are none, and passes other response codes; a truncated response is retried exactly once with the retry resolver and others never.", "quantifier": "all responses", "why_tests_cant": "All responses.", "anchors": ["response-minimize.go", "response-collapse.go", "truncate-retry.go"]}
{"id": "C43", "title": "DNSSEC validator decides authenticity before data reaches the client", "statement": "For every upstream answer with rcode NOERROR or NXDOMAIN (names without dots inside labels) the validating resolver returns the answer with AD set only if every record set of a non-empty answer section other than RRSIGs, or for an empty one the denial of existence for the question in the answer, has been authenticated; it returns it with AD untouched only if a zone on the way is proven unsigned (C45) or in log-only mode; otherwise it answers SERVFAIL. If the upstream never sets AD, AD towards the client implies validation. It does not crash unless the upstream drops a query. Exceptions, each shown by a counterexample: the upstream's own AD flag is passed on with insecure answers; an answer section of RRSIGs only is marked AD; the answer is not compared with the question; NXDOMAIN with a non-empty answer section needs no denial; a dropped key query is a nil dereference.", "quantifier": "all upstream answers (including adversarial ones) and all queries", "why_tests_cant": "Adversarial messages.", "anchors": ["dnssec.go: Resolve", "dnssec/validator.go: Validate"]}
{"id": "C44", "title": "Chain of trust", "statement": "The validator accepts keys for a zone (names without dots inside labels) only if there is an unbroken chain of signatures from a trust anchor for the root: each DNSKEY set signed by a key whose digest is in the anchors or in a DS set signed by the parent's accepted zone keys, at times within the signatures' validity; all keys in the store were obtained that way and are returned only up to the smallest TTL of the set. The recursion ends. Exceptions, each shown by a counterexample: the owner of the DS records is not compared with the zone; a dot inside a label is taken for a label boundary; stored keys are used after their signatures expired.", "quantifier": "all zone depths, resolver responses (adversarial) and times", "why_tests_cant": "Unbounded delegation depth, adversarial responses.", "anchors": ["dnssec/validator.go: buildChainOfTrust, verifyRRSIG, filterKeysByDS, validateRRset", "dnssec/keystore.go"]}
{"id": "C45", "title": "Insecure delegations are accepted only with proof", "statement": "An answer is passed through as insecure only if the name in question (empty answer) or the owner of one of its records is at or below a zone for which authenticated NSEC or NSEC3 records of the parent zone deny DS records; authentic records do so only for names without DS (NSEC: only at a delegation). Exception, shown by a counterexample: one such record is enough for the whole answer, so a forged record of a signed zone passes beside it.", "quantifier": "all resolver responses, names (without dots inside labels), zones and orders of map iteration", "why_tests_cant": "Adversarial responses, unbounded depth.", "anchors": ["dnssec/validator.go: checkInsecureDelegation, proveNoDS", "dnssec/denial.go"]}
{"id": "C46", "title": "NSEC denial is sound", "statement": "If the validator accepts authentic NSEC records of a zone as proof that a name does not exist, then the name owns no record in that zone and neither does the wildcard at its closest encloser; if it accepts them as proof that a type does not exist, the zone has no record of that type and no alias for the name. (For zones without a wildcard directly under the root. The claim is about the zone the records belong to: the code also accepts a parent zone's records for names in a signed child zone, which is shown as a refutation, and NXDOMAIN for empty non-terminals.)", "quantifier": "all zones, all names, all subsets of the zone's NSEC records", "why_tests_cant": "All zones and names; ordering corner cases (wrap-around, empty non-terminals, delegations).", "anchors": ["dnssec/denial_existence.go: nsecProvesNXDOMAIN, nsecProvesNODATA, nsecCovers, nsecClosestEncloser"]}
{"id": "C47", "title": "NSEC3 denial is sound", "statement": "If the validator accepts authentic NSEC3 records of a zone as proof of non-existence then, barring hash collisions and opt-out, and provided that none of the records belongs to the name itself or to a wildcard, the name does not exist in that zone and no wildcard matches it; if it accepts them as proof that a type does not exist, the zone has no record of that type and no alias for the name. With opt-out, a name denied has no data but possibly an unsigned delegation, and a DS that is denied does not exist.", "quantifier": "all zones, names, hash functions without collisions", "why_tests_cant": "All zones and names.", "anchors": ["dnssec/denial_existence.go: nsec3ProvesNXDOMAIN, nsec3ProvesNODATA, nsec3ClosestEncloser"]}
{"id": "C48", "title": "Canonical name order is a total order", "statement": "The name comparison used for denial proofs is a total preorder on all strings that ignores case; on names as they are read from the wire it agrees with RFC 4034: equality exactly for equal names up to case, parents before children, and everything below a name is contiguous. (A capital letter written as a numeric escape, which the library never produces, is not folded.)", "quantifier": "all names (including escaped bytes)", "why_tests_cant": "All byte strings.", "anchors": ["dnssec/denial_existence.go: canonicalNameCmp, canonicalLabels"]}
{"id": "C49", "title": "DNSSEC records are stripped only for clients that did not ask", "statement": "A client that set DO receives the response records unchanged; one that did not receives no RRSIG/NSEC/NSEC3 unless it asked for that type, all other records in order, and an OPT record only if it sent one, with DO clear.", "quantifier": "all responses and queries", "why_tests_cant": "All responses.", "anchors": ["dnssec.go: stripDNSSEC, filterDNSSECRR"]}
{"id": "C50", "title": "Replayable early data never carries state-changing requests", "statement": "Over QUIC, operations other than QUERY and NOTIFY are neither sent nor acted upon before the handshake is complete, by client and server alike.", "quantifier": "all opcodes and connection states", "why_tests_cant": "Connection-state/opcode interleavings.", "anchors": ["message.go: isReplayableOpcode", "doqclient.go: getStream, awaitReplaySafe", "doqlistener.go: handleStream", "dohclient.go: buildGetRequest, NewDoHClient", "dohlistener.go: parseAndRespond"]}
{"id": "C51", "title": "Namespace supervisor", "statement": "For every interleaving of namespace changes, kernel event delivery, subscription, timers, build failures and listener exits: a listener bound to a network namespace is launched only when the last state delivered to its supervisor is Present; at most one instance runs unless an earlier one ignored 31 Stop calls; after Absent has been handled every launched instance has returned or been abandoned and no launch is pending; after Present there is always an instance, its result to be taken, or a timer that launches one; after the last outside event the program reaches, within a number of steps bounded by its state, a settled state in which the listener runs if and only if the namespace is there. Exceptions: a change during subscription, or one that meets a channel with 16 undelivered states, is not reflected until the next change. Kernel event records are decoded exactly.", "quantifier": "all sequences of namespace events, start failures and timer events", "why_tests_cant": "Unbounded histories.", "anchors": ["cmd/routedns/main.go: runNetNSSupervisor", "netns_watch_linux.go: subscribe, dispatch, notifyLocked"]}
{"id": "C52", "title": "Configuration graph instantiation", "statement": "Start-up (for any order of Go's maps) succeeds for exactly those configurations in which ids are unique, every reference exists, there is no cycle, no group names the same resolver twice among its resolvers and optional resolvers, all elements' own settings are valid and every listener except admin ones names an existing element or the bootstrap resolver; for all others it fails with an error and it never loops. After success every element was built exactly once, after everything it refers to, holds exactly the elements it names (nil for missing optional ones), listeners hold the elements they name, and the result does not depend on the map order.", "quantifier": "all configuration graphs", "why_tests_cant": "All graphs.", "anchors": ["cmd/routedns/main.go: start, instantiateGroup, instantiateRouter"]}
{"id": "C53", "title": "Socket hand-out restrictions", "statement": "Unless unrestricted, the fd-server only ever creates IPv4/IPv6 TCP or UDP sockets (close-on-exec). Each message of at least 16 bytes starting with XS01 gets exactly one 8-byte answer: a descriptor with errno 0, the kernel's errno, or EPERM without asking the kernel; any other message closes the connection, gets no socket and no answer, and what follows is ignored. The server closes its copy of every descriptor. The client returns or closes every descriptor of an answer with the right signature (descriptors of an answer with a wrong signature or a short one leak: C53_client_refuted).", "quantifier": "all request byte strings and request sequences", "why_tests_cant": "All 16-byte requests.", "anchors": ["xsocketserver_linux.go: handle, allowedSocket"]}
{"id": "C54", "title": "Endpoint hostname validation", "statement": "A hostname is accepted exactly when it is 1..255 octets long and, a final dot aside, its labels consist of letters, digits and hyphens, do not start or end with a hyphen, and the last one has a character that is no digit (labels before the last may be empty: shown separately). An endpoint is accepted exactly when it splits into a host that is an IP address or such a hostname and a port that is a decimal number up to 65535.", "quantifier": "all strings", "why_tests_cant": "All strings.", "anchors": ["validate.go: validHostname"]}
{"id": "C55", "title": "Prefetch", "statement": "A query is sent again by the prefetcher only after at least the threshold number of distinct client requests with the same key (question ignoring case, CD, DO, client subnet) were answered NOERROR, untruncated and with all TTLs of at least 2; consecutive ones no further apart than the window and the last no longer ago than the window (up to the cleaning interval of the cache library); the requests need not lie within one window (C55_window_refuted) and simultaneous first requests may be counted as one (C55_race_refuted). When the time of a kept query is over it is sent again if its key still reaches the threshold; a good answer keeps it for as long as the answer lasts, any other result does not. Every client request is passed upstream once and gets exactly the upstream answer. (The bound on tracked items is enforced by the cache library.)", "quantifier": "all histories", "why_tests_cant": "Unbounded histories.", "anchors": ["prefetch.go"]}
{"id": "C56", "title": "DTLS stream adaptation", "statement": "Reading a DTLS connection in arbitrary chunk sizes delivers exactly the bytes of the received records of up to 4096 octets in order, without loss or duplication; larger records and failures are reported as errors, each once.", "quantifier": "all record sequences and read sizes", "why_tests_cant": "All chunkings.", "anchors": ["dtlslistener.go: dtlsConn.Read"]}
{"id": "C57", "title": "DNS-over-QUIC message handling", "statement": "Queries go out with ID 0 and without the keepalive option and otherwise unchanged, the reply has the caller's ID; a reply or query containing keepalive is rejected; framing with a two-byte length round-trips for every message up to 65535 bytes.", "quantifier": "all messages", "why_tests_cant": "All messages.", "anchors": ["doqclient.go: Resolve", "doqlistener.go: handleStream"]}
{"id": "C58", "title": "Bounded HTTP bodies", "statement": "The DoH client never returns data from a body longer than its limit and returns any body within the limit completely; the DoH server never processes a body larger than 65535 octets.", "quantifier": "all bodies", "why_tests_cant": "All lengths.", "anchors": ["dohclient.go: readBoundedBody", "dohlistener.go: postHandler"]}
{"id": "C59", "title": "The cache does not distinguish opcodes", "statement": "The cache pays no regard to the opcode of a message: after two histories whose queries differ only in the opcode it is in the same state, and it has the same answer for two queries that differ only in the opcode. In particular a NOTIFY, UPDATE or STATUS message can get the cached answer of an ordinary query, with the opcode of that query.", "quantifier": "all histories and queries", "why_tests_cant": "Needs a proof that the opcode is part of the key, or a history that shows it is not.", "anchors": ["lru-cache.go: lruKey, lruKeyFromQuery", "cache.go: Resolve"]}
{"id": "C60", "title": "Regular expression lists and combined lists", "statement": "A regexp list loads exactly when every rule compiles and matches exactly the names (lower-cased) that some rule matches, reporting the first such rule; a combination of lists matches exactly when one of them does and gives the result of the first.", "quantifier": "all rule files, list combinations and queries", "why_tests_cant": "All rules and names.", "anchors": ["blocklistdb-regexp.go: NewRegexpDB, Match", "blocklistdb-multi.go: Match"]}
{"id": "C61", "title": "What plain and TLS clients change in a query", "statement": "Plain clients send the query with the configured EDNS0 size and without padding; DoT and DTLS clients send it with the configured size (DTLS) and, if it has EDNS0, padded to a multiple of 128 octets. Nothing else changes.", "quantifier": "all queries and configured sizes", "why_tests_cant": "All messages and option lists.", "anchors": ["dnsclient.go: Resolve", "dotclient.go: Resolve", "dtlsclient.go: Resolve", "message.go: setUDPSize"]}
{"id": "C62", "title": "Lists are replaced as a whole while queries are served", "statement": "Under any interleaving of refresh loops and queries, a query is matched against the lists that were installed by the most recent successful reloads before it took the lock; a failed reload changes nothing; a list of several parts is reloaded entirely or not at all; no query ever uses a database that was closed. (Files opened by a reload that then fails are never closed: C62_leak_refuted.) From every state all queries can be completed and every loaded list gets installed: refreshes and queries do not block each other for good.", "quantifier": "all schedules, any number of queries, lists and reload outcomes", "why_tests_cant": "Interleavings with the RWMutex and the closing of old databases.", "anchors": ["blocklist.go: Resolve, refreshLoopBlocklist, refreshLoopAllowlist", "client-blocklist.go: match, refreshLoopBlocklist", "response-blocklist-ip.go: match, refreshLoopBlocklist", "response-blocklist-name.go: match, refreshLoopBlocklist", "blocklistdb-multi.go: Reload", "ip-db-multi.go: Reload, Close", "geoip-db.go: NewGeoIPDB"]}
{"id": "C63", "title": "Lists by location and autonomous system", "statement": "A GeoIP or ASN list loads exactly if every line is blank, a comment, or an unsigned 64-bit number with an optional trailing comment. An address matches a location list exactly if the database places it in a continent, country, city or subdivision whose number is named by some line, and the reported rule is the first such number in that order; it matches an ASN list exactly if the database gives it a number that is named. A failed database lookup never matches. What the database does not know counts as number 0, so a list naming 0 matches it. Combined lists match exactly if one of them matches, the first one deciding, and closing them closes every one and reports the first error.", "quantifier": "all lists of lines, all database contents, all addresses, all combinations of lists", "why_tests_cant": "Tests use one small database file and a few rules; the claim ranges over all rule files and all database records, including incomplete ones.", "anchors": ["geoip-db.go:NewGeoIPDB", "geoip-db.go:Match", "asn-db.go:NewASNDB", "asn-db.go:Match", "ip-db-multi.go:Match", "ip-db-multi.go:Close"]}
{"id": "C64", "title": "Fixed and templated answers", "statement": "A static resolver whose configured texts are records answers every query with the configured records (answer records renamed to the name asked for), code, truncation bit and extended error, header fields as for a reply to the query, and it does so after any number of earlier queries and whatever has been written into the records of earlier responses. A text that cannot be parsed is refused at start-up; a text holding no record is not, and makes every query crash. A template resolver returns exactly the records its templates make of the query, in order, leaving out templates that fail or whose text cannot be parsed; a template that makes an empty text puts a nil record into the response.", "quantifier": "all configurations, all queries, all interleavings of queries with modifications of earlier responses, all template and record-parser behaviours", "why_tests_cant": "Aliasing of shared records shows only for particular sequences of queries and modifications; tests compare single responses.", "anchors": ["static.go:NewStaticResolver", "static.go:Resolve", "message.go:copyRRs", "static-template.go:Resolve", "static-template.go:processRRTemplates", "template.go:Apply", "drop.go:Resolve"]}
{"id": "C65", "title": "Logging elements are transparent", "statement": "The syslog and query-log elements pass every query with a question on exactly once and unchanged and return the outcome unchanged, whether or not log writes succeed. Syslog writes an entry for the request if asked for, and for a response nothing if it is an error or dropped, one entry for a non-success code or for an answer without records to show, and otherwise one numbered entry for each record of the type asked for (for each record if verbose). The query log holds client, name, class, type and the address of every client-subnet option, nothing else.", "quantifier": "all queries with a question, all clients, all upstream outcomes, all option combinations", "why_tests_cant": "Transparency must hold for every upstream outcome and option combination, including answers without matching records.", "anchors": ["syslog.go:Resolve", "query-log.go:Resolve"]}
{"id": "C66", "title": "The ODoH proxy contacts only well-formed targets and relays only ODoH messages", "statement": "A request to the proxy is sent on exactly once, over https, to the host and path it names, with the first 4096 octets of its body, if and only if it is a POST of ODoH content type whose host is a domain name of at least two labels of letters, digits and hyphens (at most 253 octets, last label of two or more letters, hence no address, port or user) and whose path starts with a slash, has no two dots in a row and at most 1024 octets; any other request is answered 400 or 405 and causes no traffic. The client gets a body only from a target that answered 200 with ODoH content type, otherwise a status. Which of proxy, target and configuration are served is determined by the mode.", "quantifier": "all requests (any header values, parameters, bodies, read errors), all target responses, all modes", "why_tests_cant": "The set of strings a regular expression accepts is infinite; a test tries a few hosts, the theorem characterises all accepted ones.", "anchors": ["odohlistener.go:ODoHproxyHandler", "odohlistener.go:forwardProxyRequest", "odohlistener.go:NewODoHListener"]}
{"id": "C67", "title": "Endpoint addresses: default ports, local addresses, SOCKS5 target", "statement": "A host without a port gets the default port and can be read back as host and port; an address with a port stays as it is; of a URL only the host changes and only if it has no port, and a template behind it stays; applying a default twice changes nothing. A connection uses the local address configured for the family of the address it connects to, else the general one, also if the endpoint was a name that had to be looked up. All connections of a SOCKS5 dialer ask the proxy for one address: the first one given or, with local resolution, the first IPv4 address found for it. Excepted: bare IPv6 addresses and templates without a slash.", "quantifier": "all address strings, all URL parsers, all lookup results, all dial sequences, all combinations of local addresses", "why_tests_cant": "Addresses range over all strings; a test covers a table of a few.", "anchors": ["static_default_ports.go:AddressWithDefault", "dnsclient.go:selectLocalAddr", "dnsclient.go:resolveEndpointAddr", "socks5.go:Dial", "socks5.go:socks5LocalIP"]}
{"id": "C68", "title": "Lua element: script results, pool of scripts, sandbox", "statement": "The two values a script returns are answer and error if the first is a message or nil and the second an error or nil; for any other values, and if the script fails, the query gets an error and no answer. A script that only calls a resolver is transparent. No two queries use a script at the same time; a query waits only while all scripts are in use; a query that ends gives its script back without waiting. In the sandbox a script is loaded only with the globals of the base, table, string, math and coroutine libraries, without those that load code. Excepted: a script whose second value has an unsupported type leaves a value on its stack each time and panics at last; Close panics with a query in progress.", "quantifier": "all scripts (as functions of state and query), all returned values, all interleavings of queries on a pool of any size, all library contents", "why_tests_cant": "Interleavings and returned values are unbounded, and the leak shows only after thousands of queries.", "anchors": ["lua.go:Resolve", "lua.go:NewLua", "lua.go:Close", "lua-script.go:Call", "lua-script.go:openSandboxedLibs", "lua-resolver.go:resolverResolve"]}
{"id": "C69", "title": "Functions run in a network namespace run there, and threads get back", "statement": "However calls of RunInNetNS on any number of threads interleave and whatever fails, a function runs with its thread in the namespace asked for, exactly once if the preparations succeed and not at all if one of them fails, and no descriptor stays open. In runs in which switching back never fails and no thread starts a call while the main thread is in one, every thread is back in the namespace of the process afterwards.", "quantifier": "all interleavings of calls on any number of threads, all failures of system calls", "why_tests_cant": "The property ranges over thread schedules, and the known violation needs two threads at a particular moment.", "anchors": ["netns_linux.go:RunInNetNS", "netns_linux.go:NetNS"]}
{"id": "C70", "title": "Sockets from an xsocket-server are set up in the right order and never leak", "statement": "Whatever system call fails, listenXSocket, listenPacketXSocket and dialXSocket close the descriptor they got exactly once and last. They succeed exactly if every call succeeds: socket options, address reuse and (for IPv6) the IPv6-only flag before bind; options and the local address before connect; a pending connection only if the socket became writable without an error. The socket address is that of the host and port of the address text, is refused if the network asks for the other IP version, and an empty host means the wildcard address. The time limit is rounded to milliseconds, never to none; it starts again after each signal, so that it does not bound the whole call.", "quantifier": "all networks, addresses, options, lookup results, and all outcomes of every system call", "why_tests_cant": "Failures of individual system calls cannot be provoked by unit tests, and a leaked descriptor does not show in results.", "anchors": ["xsocket_linux.go:listenXSocket", "xsocket_linux.go:listenPacketXSocket", "xsocket_linux.go:dialXSocket", "xsocket_linux.go:connectFd", "xsocket_linux.go:sockaddrFor", "sockopts_linux.go:applyToFd"]}
{"id": "C71", "title": "TLS listeners and clients trust exactly whom the configuration names", "statement": "With client authentication a TLS or DTLS listener accepts exactly clients with a certificate of an authority of the configured file, never of the system, and without such a file it is refused; unusable files are errors; listeners without TLS exist only for DoH over TCP with no-tls (which drops client authentication silently). A client accepts a server only if the certificate verifies against the configured authorities (the system ones only if none are configured), with TLS 1.2 at least, and is for the checked name: DoH over TCP the server-name or host; DoH over QUIC and DoQ the host; DoT the host with a bootstrap address, else server-name, else the host, except that a host looked up by the client is replaced by its IP address; DTLS the host only with a bootstrap address, else no name is checked.", "quantifier": "all configurations, protocols, files, certificates, lookup results", "why_tests_cant": "Tests try a handful of certificates; which name is checked depends on combinations of options and on name lookups.", "anchors": ["tls.go:TLSServerConfig", "tls.go:TLSClientConfig", "dtls.go:DTLSServerConfig", "dtls.go:DTLSClientConfig", "dotclient.go:NewDoTClient", "dnsclient.go:GenericDNSClient.Dial", "doqclient.go:NewDoQClient", "dtlsclient.go:NewDTLSClient", "dohclient.go:dohTcpTransport", "dohclient.go:dohQuicTransport"]}
{"id": "C72", "title": "Listeners listen where, and as, they are told", "statement": "A listener of any protocol is only ever in the network namespace (or with the xsocket-server) asked for; invalid IP versions and both at once are refused. Plain TCP and UDP listeners have exactly the IP version, address and socket options asked for. DoT, DoH, ODoH, DoQ and admin listeners have the address and socket options asked for, but not the IP version (DoT: only without namespace and options). DTLS listeners have neither IP version nor options, and listen on all addresses if the host is not an IP address.", "quantifier": "all listener configurations and protocols, all results of address resolution", "why_tests_cant": "Sockets opened depend on combinations of options in several packages; tests would need namespaces, interfaces and privileges.", "anchors": ["cmd/routedns/main.go:start", "cmd/routedns/main.go:networkForIPVersion", "dnslistener.go:Start", "dotlistener.go:Start", "dtlslistener.go:Start", "dohlistener.go:startTCP", "dohlistener.go:startQUIC", "doqlistener.go:Start", "adminlistener.go:startTCP", "netns_linux.go:ListenInNetNS"]}
{"id": "C73", "title": "Record fields in Lua scripts", "statement": "A script reads under the lower-case name of a field of a record, embedded structs included, exactly the value of that field, and an error under any other name. Assigning to a field changes that field and nothing else, only if the value has the right type and the field may be written (never rtype or rdlength); otherwise there is an error and the record is as before (an empty name is ignored). What was written is read back, and writing what was read changes nothing, for values the field can hold; 64-bit integers beyond 2^53 are rounded and too large numbers are cut off silently. RR.new makes a record of the type given, with exactly the values given, all other fields zero (class too), independent of the order in which the table is walked through.", "quantifier": "all record types made of a header and fields of the supported types or embedding such a struct, all records, names, Lua values and tables, all behaviours of out-of-range float conversions and of IP text functions", "why_tests_cant": "Field access goes through a reflection-built table over some ninety struct types, with index paths for embedded structs; tests check a few types and values, not that every field of every shape is reached and no other is changed.", "anchors": ["lua-rr.go: RegisterRRTypes, rrFieldsForType, rrFieldDB.get, rrFieldDB.set, getIPField, setUint8Field, setStringSliceField", "lua-helpers.go"]}
{"id": "C74", "title": "Lua scripts read and change messages, questions and OPT records as documented, with the sharing that handles suggest", "statement": "For every well-formed store of messages, questions and records: reading a documented field of a message gives that part of it and any other name is an error; an assignment changes that part of that message to the value (identifiers modulo 2^16) and nothing else in any message, record or question a script holds, and a refused assignment changes nothing. Writing to a question read from a message changes that question of that message and no other message; assigning questions copies them. set_reply, set_question, set_edns0, is_edns0 have exactly their documented effects. The fields of an OPT record are independent and read back as written, except extended_rcode (refuted: 23 reads back as 16). Whatever sequence of operations a script performs with the references it has obtained, the store stays well formed, no reference dangles, and an operation that raises an error has changed nothing.", "quantifier": "all stores, messages, field names, Lua values (also of wrong types), TTL bits, and all finite sequences of script operations", "why_tests_cant": "Sharing between handles, messages and records depends on the history of operations, and the values are arbitrary Lua values; tests check single assignments.", "anchors": ["lua-message.go:RegisterMessageType", "lua-message.go:rrSliceToTable", "lua-message.go:tableToRRSlice", "lua-question.go:RegisterQuestionType", "lua-opt.go:RegisterOPTType"]}
{"id": "C75", "title": "Lua scripts read, make and change EDNS0 options as documented, and constants, client information and errors have the right values", "statement": "For every EDNS0 option of the fourteen supported types: an option taken from a record has the metatable of its type; reading a documented field gives its value and \"option\" its assigned code, any other name is an error; an assignment succeeds exactly for values of the right type, changes that field and nothing else, and exact values are read back; writing back what was read changes nothing (except numbers beyond 2^53, refuted); the new functions take the fields in order with zero defaults and accept exactly arguments of the right types. Whatever a script does with messages, records and options, the state stays well formed, no reference dangles, options keep their type, errors change nothing, and an assignment to an option shows in every OPT record that has it. For any iteration order of the library tables the constants TypeX, ClassX, RcodeX and EDNS0X have their numbers and other globals are untouched. Client information has the documented fields only.", "quantifier": "all options and field values, field names, Lua values (also of wrong types), argument lists, finite sequences of script operations, and iteration orders of Go maps", "why_tests_cant": "Values and argument lists are unbounded, sharing of options between records depends on the history of operations, and map iteration order is random; tests check a few assignments.", "anchors": ["lua-edns0.go:RegisterEDNS0Types", "lua-helpers.go:getNumberSlice", "lua-types.go:RegisterConstants", "lua-clientinfo.go:RegisterClientInfoType", "lua-error.go:RegisterErrorType", "lua-opt.go:RegisterOPTType"]}
{"id": "C76", "title": "Trust anchors of a validator: configured, else unexpired ones behind the URL, else the built-in ones", "statement": "A DNSSEC validator starts with the trust anchors given in its configuration; if there are none and a URL is set, with the entries of the document behind the URL (status 200-299, readable XML), in order and for the root, leaving out exactly the entries whose validUntil the library reads as an instant that has come; and if that leaves none, or there is no URL, with the two built-in root keys. So it never starts without anchors. Every RFC 3339 date with capital T and Z and no leap second is read as the instant it names (years, months, leap days, fractions and offsets), so an expired entry is never used and one without an end, or with one to come, always is. The chosen anchors are exactly the DS records in the key store, in order and under their owners, for 2^32-1 seconds. Exceptions (refuted): validFrom is ignored, so keys not yet valid are trusted; an end that the library cannot read - a leap second, small t or z - counts as no end.", "quantifier": "all configurations, URLs, answers of the server, documents, date strings, times and names", "why_tests_cant": "The tests try a few dates and documents; the calendar arithmetic over all dates, all spellings of a date, all mixtures of expired and valid entries and all failures of the fetch cannot be enumerated.", "anchors": ["dnssec-iana.go: FetchTrustAnchorsFromURL, isIANAAnchorValid, ianaKeyDigest", "dnssec.go: NewDNSSECValidator, defaultTrustAnchors", "dnssec/validator.go: SetAnchor", "dnssec/keystore.go: addDS, getDS"]}
{"id": "C77", "title": "Saving the cache while it is in use, and restarts at any moment", "statement": "Queries, garbage collection, interval saves and the save on closing run side by side, any step of a save may fail, and the process may end and start again at any moment. At every moment the cache file is what it was at first or the complete cache as it was at one single moment; it only ever changes to a later moment; a save that returned without an error has put the cache into the file as it was at some moment after the call began, and the file is at least that new from then on. Saves cannot deadlock with each other or with queries. A file that is cut short or damaged is loaded up to the damage. Over any number of restarts, each with another hash function and capacity, every answer from the cache is one that upstream gave to that question, aged correctly and within its lifetime.", "quantifier": "all interleavings of cache operations, saves and restarts, all failures, all files, all histories", "why_tests_cant": "Tests save and load once, in sequence; the property is about every interleaving of saves with cache operations and every point at which the process may stop.", "anchors": ["cache-memory.go: NewMemoryBackend, Close, writeToFile, loadFromFile, intervalSave", "lru-cache.go: serialize, deserialize", "atomicfile.go: writeFileAtomic"]}
{"id": "C78", "title": "Starting and stopping a listener", "statement": "For every kind of listener, with one Start, any number of concurrent Stops and queries in any interleaving: once a Stop that took effect has returned no query is accepted any more, Start ends within three steps of its own without waiting for anything, and with both returned the listening socket is closed. Queries being worked on are not lost and a Stop waits for them, except over QUIC, where they are cut off. Every query that came in was answered, is being worked on or was cut off, and a Start that is told to end while serving returns without an error. A Stop that comes too early changes nothing (an error for plain DNS, DoT and DTLS, nil for the others); one called while the listener serves takes effect. Exceptions: a Start over QUIC that fails by itself leaves the socket open; DoQ never returns after Accept failed for a reason other than Stop.", "quantifier": "all listener kinds, all interleavings of Start, Stops, queries and failures", "why_tests_cant": "Tests start a listener, wait and stop it; the moments between binding, publishing and serving, and Stops that arrive in them, cannot be enumerated by running it.", "anchors": ["dnslistener.go: Start, startWithSocketSetup, Stop", "dotlistener.go: Start, Stop", "dtlslistener.go: Start, Stop", "dohlistener.go: startTCP, startQUIC, Stop", "adminlistener.go: startTCP, startQUIC, Stop", "doqlistener.go: Start, Stop", "xsocketserver_linux.go: Start, Stop", "cmd/routedns/main.go: stopNetNSListener"]}
{"id": "C79", "title": "ODoH client: what the proxy sees, and the key of the target", "statement": "The ODoH client sends the proxy nothing but its own URL with the target added (all parameters of that URL kept in order, everything escaped) and the encrypted query; through the proxy of RouteDNS with POST the encrypted query reaches exactly the configured name and path over https. A preset configuration is always used and nothing is fetched; otherwise the key is the first one of a complete response not older than a day, is fetched once a day, and a failed request fails only its own query: the next one asks again. Exceptions: GET is refused by the proxy; a target in the URL of the proxy wins; with a bootstrap address the key is requested from that address; the status of the response with the key is not checked; a key that the target has replaced is used for up to a day.", "quantifier": "all URLs, targets, queries, histories of key requests and times", "why_tests_cant": "Tests use one URL and one key; the round trip of the parameters and the history of keys range over all strings and all sequences.", "anchors": ["odohclient.go: NewODoHClient, Resolve, customizeRequest, buildTargetQuery, getTargetConfig, refreshTargetKey", "odohlistener.go: ODoHproxyHandler", "dohclient.go: buildRequest, dohTcpTransport"]}
{"id": "C80", "title": "Socket file of the xsocket server", "statement": "An abstract socket name has at most one xsocket server at a time and a server that serves is the one clients reach, whatever the order in which servers start, stop and die. For a path the same holds, and the file has the configured mode, as long as no two servers are inside listen at the same time and no other program touches the file of a running server. A start after all servers ended replaces what they left behind; a start that finds a server which takes connections fails and changes nothing; an object that takes connections, or fails otherwise than by refusing them, is never removed, however many starts run side by side; Stop removes the file. A server needs at most eight steps for its start and its stop, none of which waits for another server. Exceptions shown: two starts side by side may both serve with one of them unreachable (with a stale file, and without one because a socket refuses connections between bind and listen); Stop removes the file of another server; a file or empty directory is removed as if it were a stale socket; clients may connect before the mode is set.", "quantifier": "all numbers of servers, all interleavings of their system calls with deaths, failures and other programs, all modes and initial contents of the path", "why_tests_cant": "the outcome depends on the interleaving of bind, listen, connect, unlink and chmod of several processes; tests start one server after the other", "anchors": ["xsocketserver_linux.go: XSocketServer.listen, Start, Stop"]}
{"id": "C81", "title": "Connection of a DoQ client under concurrent queries", "statement": "However many queries use a DoQ client at the same time, and however dials fail and connections end: there is at most one open connection and it is the one queries get; one query at a time dials, waits or opens a stream; a query that must not be replayed is written only to a connection whose handshake is complete; as long as the peer allows more streams the client closes no open connection, so that a query is cut off only when its connection ends from outside; a query makes at most one restart; the query inside the mutex always goes on, but for a handshake under way; and after any history the next query gets a stream if dialling works. Exceptions shown: one query more than the peer allows streams closes the connection and cuts off all queries under way; a query may wait for the mutex while any number of others dial in vain.", "quantifier": "all numbers of queries, all interleavings with failing dials, ends of connections, handshakes and stream limits", "why_tests_cant": "depends on the schedule of goroutines and on the peer; tests use one query at a time against a peer without limits", "anchors": ["doqclient.go: quicConnection.getStream, awaitReplaySafe, restart, DoQClient.Resolve"]}
{"id": "C82", "title": "Shared buffers of the cache", "statement": "However many stores of the memory and Redis back ends encode records side by side and write them in the background: what is stored is the record that was encoded, byte for byte; no two stores work on the same array, none on an array the pool can hand out, and the pool hands out no array twice; each buffer is put back once; there are never more background writes than the semaphore allows, a record is left out only if there are that many (or packing fails), and no store panics, waits for another or goes on for ever; buffers have at least 2048 bytes and never shrink; a buffer adopted by the memory back end holds any answer that needs no more. Exception shown: the array the Redis back end makes for an answer that does not fit, and leaves to the pool, is always too small for that same answer.", "quantifier": "all numbers of calls, all messages and sizes, all interleavings byte by byte, all choices and losses of sync.Pool, all capacities of the semaphore", "why_tests_cant": "aliasing shows only under particular interleavings of goroutines; the race detector sees only those that ran", "anchors": ["cache.go: packBufPool, putPackBuf, adoptPackBuf", "cache-blob.go: newCacheBlob", "cache-redis.go: encodeCacheAnswer, redisBackend.Store"]}
{"id": "C83", "title": "Namespace watcher with many subscribers", "statement": "A subscriber first gets the state that subscribing found; an event goes to all subscribers for its name and no others, and each is sent the state unless it is the one sent last or 16 states wait; the states sent alternate and arrive in order; when no event for a name waits to be read, the state sent last is the true one, if the kernel lost no event, the name is an entry of the directory, the namespace did not change while the subscriber joined, and the latest state met no full channel (each exception is shown to be real); cancelling removes exactly one subscriber, after which nothing is sent to it. WaitNetNSReady ends at the first look that finds the namespace mounted or its file gone, or after the deadline; it makes at most one look in 10 ms and two more, none later than the deadline but for what the machine is late; and it notices a mount that lasts 10 ms before the deadline.", "quantifier": "all numbers of subscribers and names, all interleavings of changes, subscriptions, reads, receives and cancellations, all limits of the kernel queue, all histories of statfs and all delays", "why_tests_cant": "the order of file system changes, kernel events and subscriptions cannot be enumerated, and the races need particular timing", "anchors": ["netns_watch_linux.go: netnsWatcher.subscribe, dispatch, notifyLocked, WaitNetNSReady"]}
{"id": "C84", "title": "Host names looked up through the bootstrap resolver", "statement": "With a bootstrap resolver, a lookup of the program itself asks that resolver only for what was requested, as 127.0.0.1, at most twice per attempt (twice if the first answer is truncated); it ends with an answer of the resolver that is a response with the ID and the one question of the request and fits 1232 octets; a failed or dropped query, or an answer that does not pack or is longer, makes the attempt fail and never panics or waits; it waits for ever exactly if the resolver gives a message that is not such a response, which cannot happen with answers that carry ID, question and response flag of the query; DoQ, plain, DoT and DTLS clients see to ID and question. Exception shown: a DoH client passes on any ID, and such a lookup never ends.", "quantifier": "all resolvers (each call may give anything), all requests, questions, codecs and numbers of attempts", "why_tests_cant": "needs misbehaving upstream servers and the interplay of the resolver of the Go library with deadlines that do nothing", "anchors": ["net-resolver.go: NewNetResolver, packetConn.Read, Write, SetDeadline", "cmd/routedns/main.go: start (bootstrap-resolver)", "dohclient.go: responseFromHTTP"]}
{"id": "C85", "title": "Every answer carries the ID and the question of its query, through any configuration", "statement": "Whatever configuration is put together from routers, groups, caches (memory or Redis), request-dedup, rate limiters, blocklists, response blocklists, modifiers (TTL, EDNS0, ECS, replace, minimise, collapse, truncate-retry, DNS64, fastest-tcp), loggers, static and template responders and DNSSEC validators, in whatever state they are: if the resolvers at its end answer with the ID and first question of what they were asked, so does the whole; DoQ, plain, DoT and DTLS clients do, whatever their servers send. What a listener (plain, DoT, DTLS, DoH, DoQ) then sends has the ID and first question of the request, also when it refuses the client or resolving failed. Exceptions shown: a DoH client passes on the ID its server chose, and that reaches the client of a plain listener; nothing checks that an answer is flagged as a response.", "quantifier": "all configurations of any depth and width, all states of each element, all queries with a question, clients, upstream behaviours and schedules of the validator", "why_tests_cant": "the number of configurations is infinite, and the property is about every combination, state and upstream behaviour", "anchors": ["cmd/routedns/main.go: instantiateGroup, instantiateRouter", "cache.go: Cache.Resolve", "cache.go: ageCachedAnswer", "replace.go: Replace.Resolve", "dns64.go: DNS64.Resolve", "request-dedup.go: requestDedup.Resolve", "dnssec.go: DNSSECValidator.Resolve", "dnslistener.go: listenHandler", "dohlistener.go: parseAndRespond", "doqlistener.go: handleStream"]}
{"id": "C86", "title": "Log records of a query carry its context and only the attributes added on their own line", "statement": "Whatever loggers are made, in whatever order With is called on which of them and however much room append leaves: a call below the level of its destination logs nothing and changes nothing; any other hands exactly one record to the slog.Logger that was Log when the logger was made (or is Log now, if it was made without), with the ID of the element, the client, type and name of the query, the listener attributes that are not empty, the arguments of exactly those calls of With that led to this logger, in order, and then those of the call. A copy never changes what its original or a sibling logs, and no step writes to memory that another logger can see. Levels 0-6 of the command line show nothing, errors, warnings, information, everything; others are refused. Exceptions shown: a key without value swallows the first argument of the next With; the query is read at the time of logging.", "quantifier": "all sequences of events (new loggers, With on any, records on any, replacing Log, changes to messages), all arguments, capacities and levels", "why_tests_cant": "aliasing of slices shows only for certain capacities and orders of calls on shared originals", "anchors": ["logger.go: logger, queryLogger.With, queryLogger.log, qTypeName", "cmd/routedns/main.go: slogLevel"]}
{"id": "C87", "title": "Groups with lists do what their settings say", "statement": "A group of type blocklist, blocklist-v2, response-blocklist-ip (-cidr), response-blocklist-name or client-blocklist is built only with exactly one upstream resolver, with rules in the configuration or sources but not both, with known formats and lists that can be read; sources without a scheme are read as files from exactly that path, http and https URLs (in any case) are fetched, any other source with a colon before its first slash is refused. In the group so built, queries on an allowed list go to the allowlist-resolver or upstream, others are decided by the first of the block lists in configured order that has them, and the rest goes upstream unchanged; responses are passed, filtered, replaced or sent to the blocklist-resolver as filter, inverted and blocklist-resolver say; the extended error is the one configured; refresh intervals are the configured seconds. Exceptions shown: allowlist-format is ignored, rules to allow are read in blocklist-format (so rules in the format domain allow whatever contains them); edns0-ede is ignored by response-blocklist-name (and by the old type blocklist); file names with a percent sign may be refused; intervals over 292 years mean none.", "quantifier": "all group settings, upstream results, list contents (matching functions), queries and clients", "why_tests_cant": "each setting has to reach the right field of the right element for every combination of settings; a test shows one combination, and none of the tests reads a configuration file", "anchors": ["cmd/routedns/main.go: instantiateGroup, newBlocklistDB, newIPBlocklistDB", "cmd/routedns/config.go: group, list", "edns0ede.go: NewEDNS0EDETemplate", "blocklist.go: NewBlocklist", "response-blocklist-ip.go", "response-blocklist-name.go", "client-blocklist.go"]}
{"id": "C88", "title": "Groups that pick a resolver, change queries or responses, or answer by themselves do what their settings say", "statement": "Groups of the types round-robin, fail-rotate, fail-back, fastest, load-balance, random, replace, ttl-modifier, truncate-retry, request-dedup, fastest-tcp, ecs-modifier, edns0-modifier, static-responder, static-template, response-minimize, response-collapse, drop, rate-limiter and dns64 are made exactly if every resolver they name exists, there is exactly one where only one is supported, and their words, expressions, records, templates and prefixes can be understood. A group so made works on the resolvers named, in their order, and does what each setting says: TTL limits and selection; the client subnet operation with its address and prefix lengths; the option added or removed; names replaced there and back; truncated responses asked for again from retry-resolver; records, templates, response code, truncation and extended error of fixed answers; DNS64 prefixes with 64:ff9b::/96 as default; port, wait-all and success-ttl-min of TCP probes; requests in a window per network with the defaults 60, 24 and 56 and the limit-resolver; which replies count as failures under servfail-error and empty-error; reset-after in seconds with the default 60, no reset at 0; failure-penalty in seconds from the second failure in a row on.", "quantifier": "all settings of these groups, sets of resolvers and their answers, library functions (regular expressions, templates, record and address parsers), queries, clients, histories and interleavings; times within 292 years, prefix lengths within the address length", "why_tests_cant": "each setting has to reach the right parameter of the right element, with the right unit and default, for every combination of settings and every later query or interleaving", "anchors": ["cmd/routedns/main.go: instantiateGroup", "cmd/routedns/config.go: group", "ttl-modifier.go: NewTTLModifier", "fastest-tcp.go: NewFastestTCP", "rate-limiter.go: NewRateLimiter", "dns64.go: NewDNS64", "static.go: NewStaticResolver", "static-template.go: NewStaticTemplateResolver", "replace.go: NewReplace"]}
{"id": "C89", "title": "Caches, and groups that refresh, log, run scripts or validate, do what their settings say", "statement": "Groups of the types cache, prefetch, syslog, query-log, lua and dnssec-validator are made exactly if every resolver they name exists (exactly one except for lua), the words for shuffle, priority, format and backend are known, the keys of cache-rcode-max-ttl are numbers, the log file can be opened, and there is a script that can be read, compiled and run. A cache in memory so made keeps an answer as many seconds as its smallest TTL, cache-negative-ttl (default 60; at most 300 for SERVFAIL) and the limit for its response code say, no longer and no shorter, as long as no response code has two limits; never holds more entries than its capacity, that of the backend if there is one; answers with the shuffle set; denies names below an NXDOMAIN only if hardening is set; empties itself for the flush query and holds nothing then; and asks again for an answer exactly if its TTL was greater than cache-prefetch-eligible and has fallen below cache-prefetch-trigger. Periods, file and Redis options are those of the settings with their units and defaults. prefetch, syslog, query-log, lua and dnssec-validator work with their settings: threshold and window, severity and destination, file and format, script, number of scripts, trust anchors and log-only.", "quantifier": "all settings of these groups, sets of resolvers, files, scripts, histories of the cache that start without entries, queries, times, answers of upstream resolvers, shuffles, hash functions, cryptography and interleavings of validation; periods within 292 years, TTL settings of 32 bits", "why_tests_cant": "each setting has to reach the right field with the right unit and default, and its effect shows only in later queries after arbitrary histories", "anchors": ["cmd/routedns/main.go: instantiateGroup", "cmd/routedns/config.go: group, cacheBackend", "cache.go: NewCache", "cache-memory.go: NewMemoryBackend", "prefetch.go: newPrefetchWithShards", "query-log.go: NewQueryLogResolver", "lua.go: NewLua", "syslog.go: NewSyslog", "dnssec.go: NewDNSSECValidator"]}
{"id": "C90", "title": "Resolvers do what their settings say", "statement": "A resolver is made exactly if its protocol is known, not both netns and xsocket are set, its address is a host that is a valid name or address with a valid port (default 53, 853 or 8853) or, for doh and odoh, a URL template with known method and transport and a possible 0-RTT, its files with certificates can be read, and for dtls an address is known. Every connection of it is made with one socket of the kind of the protocol to the host (its first address if it is a name) or to the bootstrap address and the port, in the namespace or through the xsocket helper, with the mark and the interface, and from the local address for the family of the server; with a SOCKS5 proxy (udp, tcp, dot and doh over TCP) by one connection to the proxy, and for udp one socket to the address it names, the proxy being asked for the host or what it resolves to, with user and password. TLS uses the authorities, certificate and name set; queries may take query-timeout seconds or 2; edns0-udp-size is announced by udp, tcp and dtls; DoH uses method, URL (port 443 by default), idle timeout (30 s by default over TCP), transport and 0-RTT as set, ODoH the target set. Exceptions, each with a witness: plain DNS ignores bootstrap-address; doq, dtls, odoh and DoH over QUIC ignore the proxy; QUIC uses the local address of one family for both if only that is set; the local address for a proxy is chosen by the target; with netns, socket options and a proxy given by a name with addresses of both families the connection to the proxy leaves the namespace; local addresses that cannot be parsed are ignored.", "quantifier": "all settings of resolvers, all addresses net/http asks for, and all results of parsing, lookups, file reading and binding that the standard library may give", "why_tests_cant": "Some two dozen settings interact, over seven protocols and three transports; tests check few of them, need name servers, proxies and namespaces, and do not see where a socket is made.", "anchors": ["cmd/routedns/resolver.go:instantiateResolver", "cmd/routedns/resolver.go:socks5DialerFromConfig", "cmd/routedns/config.go:resolver", "dnsclient.go:NewDNSClient", "dnsclient.go:Dial", "dotclient.go:NewDoTClient", "dtlsclient.go:NewDTLSClient", "doqclient.go:NewDoQClient", "dohclient.go:NewDoHClient", "dohclient.go:dohTcpTransport", "dohclient.go:dohQuicTransport", "odohclient.go:NewODoHClient", "socks5.go:NewSocks5Dialer"]}
{"id": "C91", "title": "Listeners do what their settings say", "statement": "The program starts exactly if every listener has a known protocol, an existing resolver (except admin), networks in allowed-net and trusted-proxy, ip-version 4, 6 or none, not both netns and xsocket, readable files for TLS (except plain DNS and DoH with no-tls, which is not for QUIC) and, unless it waits for a namespace given by name, a known transport (doh, admin) and a usable key seed (odoh). A listener in a namespace given by name is made each time the namespace appears, any other at the start. It listens at its address, with the port of the protocol by default, in the place and with the options asked for as far as C72 has it, and its TLS uses the files named. Queries of clients in allowed-net (DoH: of the address forwarded by a trusted proxy) go to the resolver named and to no other, with the name of the listener and the address of the client, and its outcome is the reply; other clients get REFUSED or, with DoQ, nothing, and no resolver is asked. Replies over DTLS and over UDP are truncated to the size the client accepts; those over DoT and DTLS padded. ODoH listeners serve the paths of their mode with the key of the seed, which is also the one published, and DoH if allowed; the admin service serves metrics. Exceptions, each with a witness: with ip-version answers over UDP are not truncated; the admin service and ODoH ignore allowed-net; unknown odoh-modes are accepted; in namespaces given by name unknown transports and bad seeds are not refused.", "quantifier": "all settings of listeners, all worlds (resolvers, files, parsers, random octets), all clients and requests, all libraries for messages and encryption", "why_tests_cant": "Nineteen settings interact over eight protocols; tests start one listener of each kind with few settings on the local host, none with ip-version and a large answer.", "anchors": ["cmd/routedns/main.go:start", "cmd/routedns/config.go:listener", "cmd/routedns/config.go:parseCIDRList", "dnslistener.go:NewDNSListener", "dnslistener.go:listenHandler", "dotlistener.go:NewDoTListener", "dtlslistener.go:NewDTLSListener", "dohlistener.go:NewDoHListener", "doqlistener.go:NewQUICListener", "odohlistener.go:NewODoHListener", "odohlistener.go:getKeyPair", "adminlistener.go:NewAdminListener"]}
{"id": "C92", "title": "The program starts with acceptable configurations only, and is then what they describe", "statement": "The program starts exactly if its configuration is acceptable: no name is given twice, every name used exists, no element depends on itself, no group names an element twice, the bootstrap resolver and all resolvers, groups, routers and listeners have settings that are all right in the sense of C26, C27, C87-C91; otherwise it ends with an error, and never panics. Once it runs, every name is the element its settings make of the elements its settings name, each listener is started with the element it names, routers send a query to the element of the first route that matches and to no other, and whatever happens no element asks another that its settings, or those of the elements it can reach, do not name. Neither the order in which maps are iterated nor the order in which the settings are given makes a difference, except to that of the listeners. When the program ends, the caches with a memory backend are closed, each once, and no others. The files named in the command line are read in their order, as one, with a line break after each; a log level above six is refused. The socket server takes octal modes up to 777, of which 0 counts as none (witness).", "quantifier": "all configurations without an empty name, all worlds (files, TOML, parsers, libraries, random octets), all orders of iteration, all queries and all states of the elements asked, all command lines", "why_tests_cant": "Tests build single elements, or load the examples that come with the program; no test covers what a whole configuration becomes, every configuration that is to be refused, or every order of iteration over the maps.", "anchors": ["cmd/routedns/main.go:start", "cmd/routedns/main.go:instantiateGroup", "cmd/routedns/main.go:instantiateRouter", "cmd/routedns/main.go:main", "cmd/routedns/config.go:loadConfig", "cmd/routedns/main.go:runFDServer", "cmd/routedns/resolver.go:instantiateResolver"]}
{"id": "C93", "title": "The published counters show what happened", "statement": "For any calls, and in whatever order their additions are made: the query counter of a listener is the number of messages with a question (DoH: requests with octets for the DNS parser), and every query is counted exactly once more, as dropped, as an error before the resolver is asked, or as a response under the code of the reply that is sent; resolver failures and refused clients are errors of DNS listeners, but not of DoH and DoQ. Allow and deny of a blocklist are the queries sent on and those not; hits of a cache are answered whatever upstream says, misses by upstream, and each single-question query other than the flush query is one of them; DNS64 counts as synth exactly the replies with AAAA records that upstream did not give; exceed and drop of a rate limiter are the rejected and the dropped; a validation success is a validated answer with AD, a failure a bogus one. Route and failure of routers and groups are, per resolver, the queries it was sent and its bad replies, for every interleaving of calls; the failover counters of fail-rotate and (since the last reset) fail-back tell who is asked next, and the gauge of fail-back is the number of resolvers from that one on. The gauge of a random group never shows too few, and its failover counter is the number of picks (witnesses that they are no more than that). No sequence of constructors panics on the names of variables, the variables are routedns.family.id.name for the names of each kind of element and no others, and a variable is shared only by elements of the same id, except that of redis caches.", "quantifier": "all calls, resolvers, messages, settings and identifiers, all histories and all interleavings of concurrent calls and of their additions", "why_tests_cant": "Tests look at one counter after one call, if at all; the totals after any history, under any interleaving, the absence of queries that are counted nowhere or twice and of clashes between names for all ids are beyond them.", "anchors": ["vars.go:getVarInt", "vars.go:getVarMap", "listener.go:NewListenerMetrics", "dnslistener.go:listenHandler", "dohlistener.go:parseAndRespond", "doqlistener.go:handleStream", "blocklist.go:Resolve", "client-blocklist.go:Resolve", "dns64.go:Resolve", "rate-limiter.go:Resolve", "cache.go:Resolve", "dnssec.go:Resolve", "router.go:Resolve", "roundrobin.go:Resolve", "failrotate.go:errorFrom", "failback.go:errorFrom", "random.go:pick", "loadbalance.go:Resolve"]}
{"id": "C94", "title": "The counters of upstream clients show what happened", "statement": "For any calls, in whatever order their additions are made: queries of a DoH client are the calls whose message could be packed, of a DoQ client all calls, and each call that does not panic is counted exactly once more, as a response under the code of the answer it returned, or as an error under the key of the reason it failed for; ODoH clients count responses and errors in the same way, except that failures to pack or encrypt, targets without a usable key and replies of another type are counted nowhere, and queries never. In every state that a pipeline (plain, DoT, DTLS) can reach: queries are the messages sent, responses and unexpected answers together the messages received, but for one the reader still holds; responses per code are the requests completed with such a message, never more than queries and never fewer than the calls that returned such an answer (a reply to the wrong question is counted as a response: witness); open, inflight_full and querytimeout are the requests that failed for that reason, send_query the failures of writing, server_term, server_eof and read the connections that ended in that way; no other keys are used; and maxqueue is the largest number of queries in flight at a time, as of the latest response.", "quantifier": "all calls, messages, servers, settings, schedules of the goroutines of a pipeline and of its callers, and all orders of the additions", "why_tests_cant": "Tests do not look at these counters; that nothing is counted twice or left out after any history, under any interleaving of reader, writer, callers and timeouts, needs an invariant.", "anchors": ["pipeline.go:Resolve", "pipeline.go:start", "pipeline.go:inFlightQueue.add", "pipeline.go:inFlightQueue.maxQueueLen", "dohclient.go:Resolve", "dohclient.go:do", "dohclient.go:responseFromHTTP", "odohclient.go:decodeProxyResponse", "doqclient.go:Resolve", "listener.go:NewListenerMetrics"]}
{"id": "C95", "title": "The validator accepts what is correctly signed", "statement": "As long as the upstream resolver faithfully serves the keys and DS records of the secure zones (each the child of the zone one label up, with keys of flags 256 and 257 only, and signatures valid over the whole period, at most 2^32-1 seconds from the start), every query whose answer consists of record sets signed by secure zones at or above their names, or is a denial proven by NSEC or NSEC3 records so signed, is answered with the AD flag set; every query whose answer or denial lies below a delegation that a secure zone provably left unsigned is answered as the resolver answered it; never SERVFAIL. The keys of secure zones are always found. Every query can be brought to its end from every state. This holds for any number of concurrent queries, whatever is in the key cache. Exceptions, each shown by a counterexample: a signed zone two labels below the zone with its DS records, and a zone that also has a revoked key, get SERVFAIL.", "quantifier": "all trees of signed zones of any depth, all faithful resolvers, all cryptography, all queries, numbers of concurrent queries, interleavings, times and map orders", "why_tests_cant": "Unbounded delegation depth, interleavings of concurrent validations over a shared key cache, arbitrary record sets and signatures.", "anchors": ["dnssec/validator.go: Validate, checkInsecureDelegation, proveNoDS, validateRRset, buildChainOfTrust", "dnssec/denial_existence.go: validateDenial, collectVerifiedDenialRecords", "dnssec/denial.go: verifyDSDenial", "dnssec/keystore.go", "dnssec.go: Resolve"]}
{"id": "C96", "title": "Complete proofs of denial are accepted", "statement": "If the NSEC records of a reply are records of one zone and include the ones that RFC 4035 asks for (for NXDOMAIN one that spans the name and one that spans the wildcard at its closest encloser; for NODATA the record of the name, or one that spans it and the record of the wildcard, without the type and without CNAME), then they are accepted as proof, in whatever order and with whatever further records of the zone; likewise the NSEC3 records that RFC 5155 asks for, with and without opt-out, in every zone but the root. The validating resolver passes a denial whose records are so complete and signed by secure zones on with AD set. Exceptions, each shown by a counterexample: with NSEC, NODATA for a name that exists only because of names below it is refused; with NSEC3 opt-out, NODATA for the DS of an unsigned delegation is refused if a name between it and its closest encloser is left out of the chain as well.", "quantifier": "all zones, all lists of authentic NSEC or NSEC3 records in any order, all names in any case, all types, all injective hashes, and for the validator all that C95 ranges over", "why_tests_cant": "The records chosen depend on the order and number of records and on the shape of the zone around the name; the zones are unbounded.", "anchors": ["dnssec/denial_existence.go: nsecProvesDenial, nsecProvesNXDOMAIN, nsecProvesNODATA, nsecCovers, nsecClosestEncloser, nsec3ProvesDenial, nsec3ProvesNXDOMAIN, nsec3ProvesNODATA, nsec3ClosestEncloser"]}
{"id": "C97", "title": "An attacker without the keys can neither forge nor downgrade", "statement": "Let an attacker answer all queries of the validating resolver as they like. If signatures by keys of a zone are only made by the zone, zones sign under their own name and of DNSKEY records only their own keys, the anchors of the root are digests of its keys, and all DS records signed by the zones above a name have digests of keys of children of those zones, then: the keys accepted for the name are keys of the zone; every reply (not in log-only mode) with rcode 0 or 3 is SERVFAIL, or has AD set and consists of sets that a zone at or above the name has signed and whose signature was valid at some time up to then (or of a denial by such sets), or is about a name that is below a delegation really without DS records (with NS records, or left out of an opt-out chain) if the NSEC and NSEC3 records of the zones are true. So replies about names without such a delegation are SERVFAIL or genuine. What is denied by NSEC records of one zone is not in the zone. Exception, shown by a counterexample: it does not suffice that the DS records signed for the zone itself are right; those of its siblings can be used to forge it.", "quantifier": "all attackers (any relation from queries to answers), all verification functions, digests and hashes that meet the assumptions, all sets of zones, keys and signatures, all interleavings of any number of queries and chain constructions, all times", "why_tests_cant": "The attacker chooses every answer, in every order; that no choice leads to a forged reply is a statement over all of them.", "anchors": ["dnssec.go: Resolve", "dnssec/validator.go: Validate", "dnssec/validator.go: buildChainOfTrust, verifyRRSIG, filterKeysByDS, validateRRset", "dnssec/keystore.go", "dnssec/validator.go: checkInsecureDelegation, proveNoDS", "dnssec/denial.go", "dnssec/denial_existence.go: nsecProvesNXDOMAIN, nsecProvesNODATA, nsecCovers, nsecClosestEncloser"]}
{"id": "C98", "title": "Texts are cut, compared and converted as documented", "statement": "The functions on texts with which rules of lists, names, addresses, headers and settings are read are exactly: lower and upper case map the ASCII letters and nothing else; case-insensitive equality holds exactly for texts that differ at most in the case of letters; trimming removes all white space at both ends and nothing else; removing a suffix removes it once if it is there; splitting at a character gives the parts between its occurrences, fields the words between white space, both uniquely; numbers are written in decimal without leading zeros and read with an optional sign if they fit 64 bits; a name is made absolute by exactly one dot. The specifications of the other properties use these functions.", "quantifier": "all texts, characters and numbers", "why_tests_cant": "The functions are defined on all texts; off-by-one errors in ranges of characters or at the ends of texts show up on few of them.", "anchors": ["blocklistdb-domain.go: newDomainDB", "blocklistdb-hosts.go: NewHostsDB", "cidr-db.go: NewCidrDB", "geoip-db.go", "mac-db.go", "route.go: parseTimeOfDay", "static_default_ports.go: AddressWithDefault", "message.go: dns.Fqdn"]}
{"id": "C99", "title": "Messages made from messages", "statement": "The functions that derive messages from messages change what they are meant to change and nothing else: NXDOMAIN, SERVFAIL and REFUSED replies have the identifier, opcode and first question of the query, RD and CD of ordinary queries, RA, their code, and no records; PTR replies have one record per name in order, with TTL 3600 and a fully qualified target, and cannot be made for a query without question; the UDP size is set in the last OPT record, or in a new one at the end, and size 0 changes nothing; a response is accepted only if it echoes the first question, the name in any case; only QUERY and NOTIFY may be replayed; the DO bit is bit 15 of the TTL of the last OPT record.", "quantifier": "all messages, records, names, codes and sizes", "why_tests_cant": "Each function has to leave every other part of any message alone, including messages with several questions or several OPT records; tests look at a few messages and a few of the parts.", "anchors": ["message.go: validateResponseQuestion, qName, isReplayableOpcode, nxdomain, servfail, refused, responseWithCode, ptr, setUDPSize"]}
