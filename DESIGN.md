# Formal model of routedns: design

The source in /repo (Go, package `rdns` plus `dnssec/` and `cmd/routedns`) was read as text.
Nothing was built or run. The model is written in Rocq (Coq 8.16.1), in `rocq/theories/`,
logical name `Verif`.

## 1. Layout and conventions

* `Base.v`: byte strings, ASCII helpers, Go string functions used by the code.
* `Dns.v`: the DNS message model (`msg`, `rr`, `rdata`, EDNS0 options, questions) and the
  `miekg/dns` helper functions the code uses (`SetRcode`, `IsEdns0`, ...).
* `X_model.v`: functions of the code, one Gallina definition per Go function, each with a comment
  citing file and lines. No proofs in these files (so the model still runs when a proof breaks).
* `X_spec.v`: the small independent specification a property is stated against.
* `X_proofs.v`: lemmas.
* `Cnn_*.v`: the property theorems only, each closed with `exact`, with `Print Assumptions` beneath
  and `Example`s that show the hypotheses are met by a concrete non-trivial case.

Modelling decisions

* Go strings/byte slices: Coq `string` or `list N` of bytes. Numbers: `N`/`Z`, with the wrap-around
  written out where the Go type can wrap.
* Go maps: association functions/lists or std++-free finite maps; iteration order, where it is
  observable, is a quantified permutation.
* A resolver (`Resolver` interface) is an oracle: a function from query (and call number/state) to
  `Ans m | Drop | Err e`. Theorems quantify over all oracles. `Drop` is Go's `(nil, nil)`.
* Time is a parameter (`Z` nanoseconds), random choices and map iteration orders are explicit
  arguments, quantified universally.
* Goroutines, channels, mutexes: a labelled transition system whose steps are the atomic sections of
  the code; theorems quantify over every reachable state of every schedule.
* A nil dereference or other run-time panic is an explicit outcome, never totalised away.
* Crypto (signature verification, DS digests, NSEC3 hash) is an oracle.

## 2. Plan per property

| id | model | proof |
|----|-------|-------|
| C01 | `blocklistdb-domain.go` trie with explicit heap of shared nodes; spec: "some rule covers the name" over label lists | refinement heap trie -> pure trie -> set of rules, induction over the rules |
| C02 | same model, error path of the loader | case analysis per rule, induction |
| C03 | `ip-blocklist-trie.go`, `cidr-db.go` | induction over inserted prefixes; spec by prefix comparison |
| C04 | `lru-cache.go` as hash index + recency list | refinement to an abstract recency list, invariant over op lists |
| C05 | `lruKeyFromQuery`, `matchesKey` | injectivity of the key; arbitrary hash function |
| C06 | `cacheAge`, `ageCachedAnswer`, backend `Lookup` | direct, over all times (Z) and TTLs (mod 2^32) |
| C07 | `storeInCache`, `minTTL` | case analysis over rcodes, induction over records |
| C08 | `cache-blob.go`, `serialize`/`deserialize` | codec round trip, order preservation |
| C09 | `answerFromCache` | induction on the number of labels |
| C10 | shuffles | permutation lemmas, counting lemma for round robin |
| C11 | redis codec and key | round trip; injectivity of the joined key |
| C12-C17 | groups as transition systems | invariants over schedules |
| C18 | fastest-tcp | permutation |
| C19 | rate limiter | invariant over histories |
| C20 | request-dedup as transition system | invariant over schedules |
| C21 | pipeline as transition system | invariant over schedules |
| C22 | dns64 byte-level embedding | algebra over byte lists |
| C23 | padding arithmetic (length of packed message is an abstract function) | arithmetic |
| C24, C25 | ECS / EDNS0 option editing | list reasoning |
| C26, C27 | router, route match, time of day | induction over the route list; finite sweep |
| C28-C31 | blocklists | case analysis over outcomes |
| C32-C34 | listeners (handlers as functions with panics explicit) | case analysis |
| C35 | file system as a state machine with crash points | invariant over steps |
| C36 | loaders | induction over histories |
| C37, C38 | MAC and hosts parsing | round trip, induction over lines |
| C39-C42 | small modifiers | list reasoning |
| C43-C49 | dnssec: gate, chain builder, denial proofs, canonical order | oracle-based soundness, zone semantics for NSEC/NSEC3 |
| C50 | 0-RTT guards | case analysis over connection states |
| C51 | netns supervisor/watcher as transition systems | invariants |
| C52 | configuration graph, leaves-first instantiation | induction over the instantiation rounds |
| C53 | hand-out of sockets by the xsocket-server (`xsocketserver_linux.go`, `xsocket_linux.go`) | decision procedure against a specification, descriptor accounting |
| C54 | `validate.go` | characterisation of accepted names by label lists |
| C55 | prefetch as transition system | invariants over schedules |
| C56 | DTLS stream adaptation | induction over records |
| C57, C58 | DoQ framing, bounded HTTP bodies | induction over chunks |
| C59 | cache and opcodes | witness and direct proof |
| C60 | regular expression lists and combined lists | regular expressions by their language (derivatives), list reasoning |
| C61 | plain and TLS clients | case analysis |
| C62 | background refresh of lists as transition system | invariant over schedules |
| C63, C64 | geo/ASN lists, static answers, templates | case analysis, list reasoning |
| C65 | `syslog.go`, `query-log.go` | case analysis, panics explicit |
| C66 | ODoH proxy | case analysis over requests |
| C67 | addresses with default ports, SOCKS5 target addresses | string reasoning over all strings |
| C68 | Lua element: results, pool of scripts, sandbox | invariant over schedules |
| C69 | running functions in network namespaces | transition system over threads and namespaces |
| C70 | socket creation through the xsocket-server | step machine with failures at every system call |
| C71 | TLS/DTLS/QUIC configuration | decision tables against a specification of who is trusted |
| C72 | sockets of listeners | case analysis over configurations |
| C73-C75 | Lua values, records, messages, questions, OPT records, EDNS0 options, constants | stores with references, refinement to field lists, invariants over whole scripts |
| C76 | trust anchors: dates, fetching, choice, key store | parser against a grammar of dates, calendar by induction over years |
| C77 | saving and loading the memory cache | step machine with two locks, crashes and restarts; invariants |
| C78 | Start and Stop of every listener | step machine per kind, any number of Stops; invariant by cases |
| C79 | ODoH client: URL parameters, request, key of the target | parameters of URLs as relations between texts (Params_spec.v), round trip of query strings, refinement with the proxy of C66, history of keys |
| C80 | socket file of the xsocket server | step machine of several servers, one step per system call; invariants |
| C81 | connection of a DoQ client under concurrent queries | step machine around the mutex; invariant, measure |
| C82 | pool of buffers of the cache, background writes | memory of arrays written byte by byte, ownership invariant, measure |
| C83 | watcher of namespaces with many subscribers, WaitNetNSReady | step machine with the kernel's bounded queue, invariants; induction over the rounds |
| C84 | lookups through the bootstrap resolver (net-resolver.go under Go's resolver) | total functions; relation of outcomes, refinement, with the clients of C40 |
| C85 | ID and question of answers through any configuration: all elements but Lua scripts, validators, clients, listeners | inductive relation of configurations over the models of the elements; induction, per-element lemmas |
| C86 | loggers of a query (logger.go), levels of the command line | memory of arrays and slices; refinement to loggers as values |
| C87 | settings of groups with lists (main.go), url.Parse as far as sources of lists go | total functions; composition with the elements of C28-C31 |
| C88 | settings of groups that pick a resolver, change queries or responses, or answer by themselves (main.go instantiateGroup) | total functions; composition with the elements of C12-C27, C62-C65 |
| C89 | settings of caches and of prefetch, syslog, query-log, lua and dnssec-validator (main.go instantiateGroup, config.go cacheBackend) | total functions; composition with the elements of C05-C10, C43, C55, C65, C68, C76 |
| C90 | settings of resolvers and the sockets their connections open (resolver.go, constructors and dialing of the clients, socks5.go) | total functions; composition with addresses, namespaces, TLS and clients (C40, C62-C72) |
| C91 | settings of listeners: refusals, sockets, TLS, networks allowed, resolver asked, keys (main.go:283-464, constructors and handlers of the listeners) | total functions; composition with sockets, TLS, handlers and ODoH (C32-C34, C66, C67, C71, C72) |
| C92 | the start as a whole: which configurations are accepted, of what the running program consists, who can be asked, what is closed at the end (main.go, config.go:263-285, xsocketserver_linux.go:114) | total functions over the parsed configuration; the iteration orders of the maps as permutations; composition of C26, C52 and C87-C91 |
| C93 | what the counters show: listeners, blocklists, cache, DNS64, rate limiter, validator, router and groups, and the names of the variables (vars.go, listener.go:43-62 and the lines that add) | the additions of each call as a list beside the model of the call; values as counts in any permutation of the additions; groups over all interleavings; the registry as a finite map |
| C94 | what the counters of upstream clients show: pipeline (plain, DoT, DTLS), DoH, ODoH, DoQ (the lines of pipeline.go, dohclient.go, odohclient.go and doqclient.go that add) | as C93 for calls; for pipelines the additions of each step of the transition system of C21, invariants over its runs; maxqueue as the peak of the queue up to the latest response |
| C95 | what the validator must accept (the same code as C43, C44) | a faithful resolver over a tree of signed zones as specification; weakest preconditions of the validator's programs, invariant of the key store over all interleavings; the end of every query by induction on programs |
| C96 | which denials must be accepted (the same code as C46, C47) | the records that RFC 4035 3.1.3 and RFC 5155 7.2 ask for as specification; converse of C46 and C47: every covering record leads to the closest encloser; composed with C95 |
| C97 | what an attacker can do who answers all queries of the validator (the same code as C43 to C46) | keys of the zones and the signatures they made as specification (Forge_spec.v): verify accepts with a zone's key only what the zone made; zones sign under their own name and of DNSKEY records only their own; the root's anchors are its keys; NSEC and NSEC3 records tell the truth. These are assumptions on cryptography and zones, quantified, not axioms; the answers W are arbitrary. Induction over the chain of trust |
| C98 | the functions of Go's strings and strconv packages and dns.Fqdn in Base.v, Redis_model.v (itoa), Router_model.v (atoi) | relations between texts in Text_spec.v, Port_spec.v; other specifications use these functions as vocabulary, so they are pinned down here. ASCII only; dns.Fqdn without escaped trailing dots |
| C99 | message.go and the functions of the DNS library in Dns.v that make messages out of messages | parts of messages, changes of some parts only, the last OPT record, replies made up for a request (MsgPart_spec.v); other specifications use these functions |

Properties whose full statement is false of the faithful model get a `_refuted` theorem with a
witness next to the strongest positive theorem that holds; they are listed in section 4 as findings.

## 3. Trusted base

* Coq's kernel (8.16.1). `vm_compute` is used in some examples and finite sweeps only.
* `Print Assumptions` stands beneath every property theorem. **Each of them prints "Closed under the
  global context"**: no theorem depends on an axiom, neither of the standard library nor any other.
  Libraries used: Coq's standard library only.
* The reading of the Go code (no extraction, no execution of the real code). Each definition of a
  `*_model.v` file cites the lines it renders; simplifications are stated in its comment.
* The description of the libraries that are not in the sandbox. They enter in one of two ways:
  as quantified parameters of theorems (resolvers, clocks, random numbers, hash functions,
  signature verification, DS digests, NSEC3 hash, regular expression compilation, HTTP round
  trips, system calls and their failures, `net.ParseIP`/`IP.String` as far as they are not
  modelled, map iteration order, the schedule of goroutines), or as definitions written from
  their documentation:
  * `miekg/dns`: message structure, `SetReply`, `SetRcode`, `SetEdns0`, `IsEdns0`, `Fqdn`,
    `CountLabel`, `IsSubDomain`, NSEC3 `Cover`/`Match`, OPT accessors, the shapes of records.
  * Go: `strings`, `strconv`, `slices.Clip`, `append`, `slog.Record.Add`, `net.IP`/`IPNet`/`ParseCIDR`/`SplitHostPort`, `bufio.Scanner`,
    `container/list`-like structures, channels, mutexes, contexts, `time` arithmetic,
    the part of the resolver in `net` that C84 names; `html/template` only as an abstract function.
  * gopher-lua: values, conversions of numbers, userdata and metatables, the stack limit.
  * quic-go, pion/dtls, crypto/tls, net/http: the configuration fields set by the code and their
    documented meaning. heimdalr/dag: from its documentation. POSIX: rename, fsync, inotify, Unix sockets,
    setns, SCM_RIGHTS, poll.

### Modelled

All resolvers and modifiers (cache with memory and redis back ends, groups, router, blocklists of
all kinds, ECS/EDNS0/TTL modifiers, replace, minimise, collapse, truncate-retry, DNS64, dedup,
rate limiter, prefetch, fastest-tcp, static, drop, syslog, query-log, Lua), the DNSSEC validator
with chain building, NSEC and NSEC3 denial and the key store, list databases, loaders and their
refresh, atomic file replacement, the clients (plain, DoT, DoH, DoQ, DTLS, ODoH, pipelining), the
listeners (handlers, access control, sockets, TLS set-up), ODoH proxy and target, SOCKS5 addressing,
network namespaces (running, watching, supervising), lookups through the bootstrap resolver, the xsocket-server and its clients,
configuration graph and instantiation, and the whole Lua API (records, messages, questions, OPT
records, options, constants, client information, errors).

### Not modelled

* Wire format of DNS messages (packing, compression), TLS/QUIC/HTTP/DTLS protocols themselves,
  HPKE of ODoH, cryptography: libraries.
* Of the metrics the gauges of cache entries and of round-trip times (the rest is C93 and C94), log output (what is logged, `logger.go`), `String` methods and
  constructors that only copy their options.
* Parsing of the command line (`cobra`) and of TOML, which are functions of the world in C92, and signal
  handling in `cmd/routedns/main.go`; what is done with the options and with the parsed settings is modelled
  (C26, C87-C92). A name that is the empty string is excluded in C92.
* Non-Linux variants (`*_other.go`).
* Memory model: shared accesses outside locks are modelled as atomic steps; data races in the sense
  of the Go memory model are not.
* Go slice capacity sharing behind `append` in the Lua message API; a failing read of inotify.

## 4. Findings

Statements a user could expect that are false of the code. Each has a theorem ending in `_refuted`
(or the theorem or `Example` named) with a concrete witness, beside the strongest positive theorem.

* Lists: a malformed domain rule (C01_malformed_line_refuted); IPv4-mapped CIDR acts as
  0.0.0.0/min(len,32) and a bare IPv6 address with a dotted quad becomes a /32 (C03); IPv4 addresses
  are not in IPv6 networks shorter than /96; rules ending in CR change through the cache file
  (C36_restart_refuted); hosts files: C38_limit_refuted, an invalid address becomes a nil IPv6
  entry, "# x" comments become names; AS/geo: C63_zero_refuted.
* Cache: escaped names under an NXDOMAIN (C09_escaped_refuted); opcodes are not in the key
  (C59_opcode_refuted); redis keys run two client subnets together (C11_two_subnets_refuted); the
  address family of ECS is not in the key.
* Groups: fail-back reset race (C14_reset_race), random group (C15_again), fastest without resolvers
  hangs (C17_none), fastest-tcp loses records (C18_lost_refuted).
* Rate limiter: C19_race_refuted, C19_epoch_refuted, C19_prefix_refuted. Dedup: opcode and ECS
  corners (C20).
* Pipeline: stale and late answers (C21_stale, C21_late).
* DNS64: owner names (C22_owner_refuted), the reserved octet of /96 prefixes is not forced to zero.
  Padding: an EDNS0 modifier with code 12 makes padding panic (C23_modifier_refuted). ECS: privacy
  mode raises the prefix of an opted-out /0; adding with a nil address.
* Time-of-day windows over midnight never match (C27).
* Blocklists: C29_rcode_refuted, C29_nodata_refuted (hints in SVCB are not filtered),
  C30_service_refuted; the client blocklist uses the first ECS option, routes the last.
* Listeners: C32_odoh_refuted, C33_doq_drop_refuted; the admin listener ignores `allowed-net`;
  DTLS records above 4096 bytes are lost (C56); C72_version_refuted, C72_dtls_address_refuted,
  C72_dtls_options_refuted.
* Stopping: a Stop that comes early returns nil and does nothing (C78_nil_refuted), QUIC listeners cut off
  queries (C78_lost_refuted) and leave the socket open when serving fails (C78_leak_refuted), DoQ never
  returns after Accept failed (C78_spin_refuted).
* Files: success is not durable since the directory is not synced (C35_durable_refuted); reload
  failures leak open database files (C62_leak_refuted).
* DNSSEC: DS owner unchecked (C44_ds_owner_refuted), escapes ignored by parentZone
  (C44_escaped_refuted), keys outlive signatures in the key store (C44_expired_refuted), anchors for
  owners other than the root are never used (C44_root_anchor), upstream AD passes through
  (C43_ad_refuted), RRSIG-only answers get AD (C43_sigonly_refuted), unrelated signed RRsets are
  accepted (C43_question_refuted), NXDOMAIN with a non-empty answer skips denial
  (C43_nxdomain_refuted), a dropped key query dereferences nil (C43_drop_refuted), mixed answers pass
  as insecure (C45_mixed_refuted); NSEC: C46_delegation_refuted, C46_cut_nodata_refuted,
  C46_root_wildcard_refuted; NSEC3: C47_delegation_refuted, C47_own_record_refuted,
  C47_wildcard_record_refuted, C47_optout_wildcard_refuted; numeric escapes of capitals are not
  folded (C48).
* Namespaces and sockets: C51_race_refuted, C51_full_refuted, C51_two_refuted; C69_race_refuted,
  C69_restore_refuted; the xsocket client leaks descriptors (C53_client_refuted), poll's time limit
  restarts at EINTR (C70_timeout_refuted).
* Configuration: C52_twice_refuted, C52_bootstrap_refuted. Prefetch: C55_window_refuted,
  C55_race_refuted.
* Answers and logs: C64_blank_refuted, C64_template_refuted; queries without a question panic in
  the logging elements (C65).
* ODoH: C66_open_refuted, C66_truncated_refuted, C66_panic_refuted, C79_get_refuted, C79_given_refuted,
  C79_bootstrap_refuted (the key is requested from the bootstrap address), C79_status_refuted; a replaced
  key is used for up to a day (C79_kept). Socket file: C80_race_refuted, C80_window_refuted,
  C80_unlink_refuted, C80_file_refuted, C80_mode_refuted. DoQ: a full connection is closed under the queries
  that use it (C81_limit_refuted), waiting for the mutex has no limit (C81_wait_refuted). Buffers: what the Redis back end
  leaves to the pool is always too small for the answer it was made for (C82_adapts_refuted). Namespaces: a subscriber keeps a wrong state if the
  namespace changed while it joined, if the kernel lost events, if the name has a slash, or if it left 16 states unread
  (C83_raced_refuted, C83_lost_refuted, C83_slash_refuted, C83_full_refuted). Bootstrap: DoH clients neither set nor check
  the ID of an answer, and deadlines are ignored, so a DoH server that answers with another ID makes a lookup wait for ever
  (C84_doh_refuted); answers over 1232 octets make it fail (C84_large). The wrong ID reaches
  clients of plain listeners as well (C85_doh_refuted); nothing looks at the response flag (C85_flag_refuted). Logs: C86_odd_refuted,
  C86_late_refuted. Settings: allowlist-format is ignored, the rules to allow are read in blocklist-format
  (C87_allow_format_refuted); edns0-ede is ignored by response-blocklist-name (C87_error_refuted); C87_percent_refuted,
  C87_refresh_refuted. Settings of other groups (C88): ecs-prefix4 and ecs-prefix6 not set are 0, so that "add" sends a
  network of no bits; reset-after = 0 switches the reset of fail-back off; resolvers named by a group that uses none (drop,
  static-responder, static-template) have to exist all the same; a limit-resolver that does not exist is refused by
  the configuration graph (C52), not by instantiateGroup; with none set the queries over the limit are dropped.
  Settings of caches (C89): a backend without a type is refused (C89_type_refuted); response codes written in two ways
  (C89_order_refuted); a TTL has to be greater than the eligible one (C89_eligible_refuted); with a backend, cache-size
  and gc-period of the group are ignored; cache-negative-ttl = 0 means 60. Settings of resolvers (C90): a SOCKS5 proxy
  is ignored by doq, dtls, odoh and DoH over QUIC, which connect directly (C90_proxy_refuted); bootstrap-address by
  plain DNS (C90_bootstrap_refuted); a local address that cannot be parsed is ignored (C90_local_refuted); the local
  address for a proxy is that for the family of the target (C90_family_refuted); QUIC with one local address for a
  family uses it for both (C90_quic_family_refuted); with netns, fwmark or bind-if, and a proxy given by a name with
  addresses of both families the connection to the proxy is made outside the namespace (C90_netns_refuted: net.Dialer
  starts goroutines for the two families, which do not run on the thread that was moved); enable-0rtt is ignored by
  others than doq and doh; connecting has no timeout for dot, nor for udp and tcp without query-timeout. Settings of listeners
  (C91): with ip-version the network of a udp listener is udp4 or udp6, which listenHandler does not take for udp, so that
  answers are not truncated to what the client accepts (C91_udp_refuted); allowed-net is ignored by the admin service and
  by ODoH (C91_admin_refuted, C91_target_refuted); an unknown odoh-mode is accepted and nothing served (C91_mode_refuted); in a
  namespace given by name, an unknown transport or a bad key-seed does not end the start but fails every time the namespace
  appears (C91_namespace_refuted); trusted-proxy is ignored by ODoH, and without key-seed its key changes each time the namespace
  appears. The start (C92): of caches only those with an explicit memory backend are closed at shutdown, a default one is never
  written; a truncate-retry whose retry-resolver is missing or unknown is refused at the start; `--mode 0` of the socket server is
  the same as none (C92_mode_refuted). Counters: the failover counter of a random group counts every pick, also the first of a query
  (C93_random_failover_refuted), and its gauge still counts a failed resolver until the next pick (C93_random_gauge_refuted); the
  outcomes of DNS64 do not add up, a dropped query has none (C93_dns64_sum_refuted); the DoH listener counts neither failures of the
  resolver nor refused clients as errors, unlike the others, and a GET without usable parameter is no error either; a query that no
  route takes is counted nowhere in a router. Counters of clients (C94): ODoH clients never count queries
  (C94_odoh_query_refuted), nor failures to pack or encrypt, targets without usable key, or replies of another type; a pipeline counts a
  reply to the wrong question as a response, and no error, unlike DoH and DoQ (C94_answers_refuted); the length of the queue is
  published when a response arrives, not when the queue grows. Addresses: C67_ipv6_refuted,
  C67_template_refuted, C67_socks_refuted. TLS: C71_dot_refuted, C71_dtls_refuted, C71_doq_refuted,
  C71_no_tls_refuted.
* Lua: the stack leaks on values that cannot be converted (C68_leak_refuted), closing during a query
  panics (C68_close_refuted); numbers beyond 2^53 (C73_u64_refuted, C75_id_refuted), wrapping
  numbers (C73_wrap_refuted), extended_rcode does not read back (C74_rcode_refuted), EXPIRE stays
  empty (C75_expire_refuted), SUBNET family (C75_family_refuted).
* The validator refuses correctly signed zones: the parent of a zone is taken to be one label up, so a zone two labels below the zone
  with its DS records (common in ip6.arpa) gets SERVFAIL (C95_skip_refuted); the signature of a DNSKEY set is checked over the keys
  with flags 256 and 257 only, so a zone that also has a revoked key gets SERVFAIL (C95_revoked_refuted). Anchors are forgotten after
  2^32-1 seconds of running.
* Valid denials that are refused (SERVFAIL): NODATA with NSEC for a name that exists only because of a name below it, as the spanning record is
  not taken as a proof (C96_ent_refuted); NODATA for the DS of an unsigned delegation under NSEC3 opt-out if the name between it and its closest
  encloser is left out of the chain too, as the range is looked up for the name itself and not for the next closer name (C96_optout_refuted).
* A zone can be forged by its siblings. That no zone above a name has signed a DS record with a digest of a foreign key, under whatever owner, is
  needed: as the owner of DS records is not looked at, the DS record of attacker.com. is accepted for victim.com., and with it records that no
  zone has signed are passed on with AD set, even if all DS records of victim.com. are right (C97_sibling_refuted).
  No NSEC3 record of the root zone ever matches, because the library asks for owner names of two labels.
* Trust anchors: validFrom is ignored (C76_from_refuted), an end with a leap second or small letters
  counts as none (C76_letters_refuted). They are fetched once, with no limit on the document's size.

## 5. Status

`MANIFEST.json` lists the theorems for each property. All properties in `properties.jsonl` are
"proved": where the natural statement is false, the property's statement names the exception and the
exception is itself a `_refuted` theorem. `seeded/LOG.jsonl` records the wrong programs that were
tried against the theorems, and which theorems were tightened because of them.
