{
 "claims": [
  {
   "property": "C01",
   "status": "proved",
   "theorems": [
    "C01_domain_match_exact",
    "C01_domain_no_false_negative",
    "C01_domain_order_irrelevant",
    "C01_domain_case_irrelevant",
    "C01_malformed_line_refuted"
   ],
   "note": "Exactness for every list of well-formed lines, over a heap model with shared nodes. Finding: malformed lines with an empty inner label (a..b) are accepted and match everything below b. Names are split at every dot, so escaped dots in labels are treated as separators, as in the code."
  },
  {
   "property": "C02",
   "status": "proved",
   "theorems": [
    "C02_domain_load_fails_iff",
    "C02_domain_reported_rule"
   ],
   "note": "In domain-subdomain mode a bare * is also rejected (part of misplaced_star)."
  },
  {
   "property": "C03",
   "status": "proved",
   "theorems": [
    "C03_load",
    "C03_match",
    "C03_regular",
    "C03_order",
    "C03_nil",
    "C03_mapped_refuted",
    "C03_dotted_refuted"
   ],
   "note": "For all lists of lines and all addresses; netip.ParseAddr is an oracle. The two refuted theorems show that the naive reading of the two exceptional forms of lines is false."
  },
  {
   "property": "C04",
   "status": "proved",
   "theorems": [
    "C04_lru_refines",
    "C04_lru_sound",
    "C04_lru_survives"
   ],
   "note": "Pointer-level model of the LRU list. Exact refinement when the 64-bit hashes of the keys used do not collide; for any hash function soundness and the capacity bound."
  },
  {
   "property": "C05",
   "status": "proved",
   "theorems": [
    "C05_cache_key_exact",
    "C05_hit_same_question"
   ],
   "note": "net.IP.String is a parameter assumed injective up to IPv4-mapping."
  },
  {
   "property": "C06",
   "status": "proved",
   "theorems": [
    "C06_served_is_fair",
    "C06_cache_total",
    "C06_stored_is_served"
   ],
   "note": "Memory backend; dns.Msg Pack/Unpack are parameters, assumed to round-trip on the stored answers."
  },
  {
   "property": "C07",
   "status": "proved",
   "theorems": [
    "C07_lifetime",
    "C07_truncated_not_cached",
    "C07_lifetime_within_ttl",
    "C07_rcode_maximum"
   ],
   "note": "Corner cases shown as examples: SERVFAIL ignores record TTLs, TTL 2^32-1 counts as none."
  },
  {
   "property": "C08",
   "status": "proved",
   "theorems": [
    "C08_entry_roundtrip",
    "C08_entry_refused",
    "C08_file_roundtrip",
    "C08_load_total",
    "C08_restart_fair"
   ],
   "note": "JSON text encoding is not modelled; records are the decoded values."
  },
  {
   "property": "C09",
   "status": "proved",
   "theorems": [
    "C09_hardening",
    "C09_ancestors",
    "C09_escaped_refuted"
   ],
   "note": "For all histories, names and options. C09_escaped_refuted: with an escaped dot a name that is not below the denied one is denied too."
  },
  {
   "property": "C10",
   "status": "proved",
   "theorems": [
    "C10_random",
    "C10_roundrobin",
    "C10_roundrobin_cycle"
   ],
   "note": ""
  },
  {
   "property": "C11",
   "status": "proved",
   "theorems": [
    "C11_keys",
    "C11_two_subnets_refuted",
    "C11_roundtrip",
    "C11_rejects",
    "C11_accepts",
    "C11_hit",
    "C11_serves",
    "C11_total"
   ],
   "note": "Keys for queries with at most one client-subnet option (with two the texts run together: C11_two_subnets_refuted). Background writes in any order. dns.Class/Type.String and net.IP.String are parameters with the stated injectivity; Redis is a key-value store with deadlines."
  },
  {
   "property": "C12",
   "status": "proved",
   "theorems": [
    "C12_consecutive",
    "C12_fair",
    "C12_window",
    "C12_no_retry"
   ],
   "note": "all interleavings of calls"
  },
  {
   "property": "C13",
   "status": "proved",
   "theorems": [
    "C13_usable",
    "C13_call",
    "C13_in_range",
    "C13_distinct",
    "C13_distinct_once",
    "C13_coalesce",
    "C13_stays",
    "C13_available"
   ],
   "note": "all interleavings of calls"
  },
  {
   "property": "C14",
   "status": "proved",
   "theorems": [
    "C14_call",
    "C14_in_range",
    "C14_no_reset_order",
    "C14_no_reset_available",
    "C14_available",
    "C14_returns",
    "C14_not_early",
    "C14_stays"
   ],
   "note": "all interleavings of calls and of the timer goroutine; a call may fail if a reset happens while it runs (C14_reset_race)"
  },
  {
   "property": "C15",
   "status": "proved",
   "theorems": [
    "C15_conserved",
    "C15_eligible",
    "C15_call",
    "C15_available",
    "C15_attempts"
   ],
   "note": "all interleavings; no bound on attempts by n alone when resolvers are reactivated while the call runs (C15_again)"
  },
  {
   "property": "C16",
   "status": "proved",
   "theorems": [
    "C16_pick_in_range",
    "C16_call",
    "C16_available",
    "C16_explores",
    "C16_weights"
   ],
   "note": "floating point replaced by exact rationals"
  },
  {
   "property": "C17",
   "status": "proved",
   "theorems": [
    "C17_first_usable",
    "C17_asked_once",
    "C17_progress"
   ],
   "note": "a group without resolvers waits for ever (C17_none); sharing of the message between copies is not modelled"
  },
  {
   "property": "C18",
   "status": "proved",
   "theorems": [
    "C18_reorders",
    "C18_unchanged",
    "C18_lost_refuted"
   ],
   "note": "For all answers, modes and completions of the probes. The original statement is false for the default mode: the loop that moves the fastest record to the front duplicates it and drops the last record unless it was first or last (C18_lost_refuted); the statement names the exception."
  },
  {
   "property": "C19",
   "status": "proved",
   "theorems": [
    "C19_outcome",
    "C19_bound",
    "C19_defaults",
    "C19_race_refuted",
    "C19_epoch_refuted",
    "C19_prefix_refuted"
   ],
   "note": "Exact outcome of every query and exact number forwarded per window and subnet. Exceptions proved separately: out-of-order clock reads (race), first window after 1970 (panic), prefix longer than the address."
  },
  {
   "property": "C20",
   "status": "proved",
   "theorems": [
    "C20_key",
    "C20_one_upstream",
    "C20_joins",
    "C20_outcome",
    "C20_once",
    "C20_progress",
    "C20_opcode_refuted"
   ],
   "note": "Step machine with any number of threads interleaved at the mutex and the done channel; statements on the trace of outside events. Not in the key: the opcode (C20_opcode_refuted) and the family of all-zero subnets. Copies are independent by construction (messages are values)."
  },
  {
   "property": "C21",
   "status": "proved",
   "theorems": [
    "C21_safe",
    "C21_answer",
    "C21_call",
    "C21_once",
    "C21_drained",
    "C21_fresh",
    "C21_waiting",
    "C21_returns",
    "C21_forgotten"
   ],
   "note": "A step machine of callers, main loop, re-queueing goroutines, writer and reader; the answer may precede the query when an ID is reused (C21_stale), and a query whose caller gave up early is still sent (C21_late)"
  },
  {
   "property": "C22",
   "status": "proved",
   "theorems": [
    "C22_embedding",
    "C22_unique",
    "C22_recover",
    "C22_prefixes",
    "C22_synthesizes",
    "C22_unchanged",
    "C22_owner_refuted"
   ],
   "note": "Embedding proved for all six prefix lengths against an octet-position specification of RFC 6052; exact result of Resolve in both cases. Corrected: the owner of made records is the name asked for (C22_owner_refuted), and octet 8 comes from the prefix when it is 96 long."
  },
  {
   "property": "C23",
   "status": "proved",
   "theorems": [
    "C23_query",
    "C23_answer",
    "C23_query_total",
    "C23_answer_total",
    "C23_modifier_refuted",
    "C23_strip"
   ],
   "note": "The exception is real: C23_modifier_refuted shows that an EDNS0 modifier configured with code 12 produces such messages."
  },
  {
   "property": "C24",
   "status": "proved",
   "theorems": [
    "C24_delete",
    "C24_add",
    "C24_add_if_missing",
    "C24_privacy"
   ],
   "note": "For EDNS0 records as the DNS library parses them."
  },
  {
   "property": "C25",
   "status": "proved",
   "theorems": [
    "C25_delete",
    "C25_add",
    "C25_resolve"
   ],
   "note": "For EDNS0 records as the DNS library parses them."
  },
  {
   "property": "C26",
   "status": "proved",
   "theorems": [
    "C26_first",
    "C26_append"
   ],
   "note": "From the configuration text to the resolver queried. Regular expressions, address parsing and type names are oracles; names of types and classes are ASCII."
  },
  {
   "property": "C27",
   "status": "proved",
   "theorems": [
    "C27_parse",
    "C27_parse_none",
    "C27_before",
    "C27_after",
    "C27_window"
   ],
   "note": ""
  },
  {
   "property": "C28",
   "status": "proved",
   "theorems": [
    "C28_allowed",
    "C28_passed",
    "C28_blocked"
   ],
   "note": "Databases and resolvers are arbitrary functions of the query; db_fine (matches have list and rule, addresses are 4 or 16 octets or nil) holds for the modelled databases, see C38_fine."
  },
  {
   "property": "C29",
   "status": "proved",
   "theorems": [
    "C29_clean",
    "C29_block",
    "C29_filter",
    "C29_other"
   ],
   "note": "C29_rcode_refuted and C29_nodata_refuted show the limits: responses with other codes are not checked; filter mode turns an empty answer into NXDOMAIN."
  },
  {
   "property": "C30",
   "status": "proved",
   "theorems": [
    "C30_names",
    "C30_other"
   ],
   "note": "C30_service_refuted: a domain list does not catch a listed SVCB/HTTPS target when the record has parameters."
  },
  {
   "property": "C31",
   "status": "proved",
   "theorems": [
    "C31_client",
    "C31_addr"
   ],
   "note": ""
  },
  {
   "property": "C32",
   "status": "proved",
   "theorems": [
    "C32_dns",
    "C32_doh",
    "C32_doq",
    "C32_odoh_refuted"
   ],
   "note": "Networks are read from the configuration text. The ODoH target does not enforce allowed-net on oblivious queries: C32_odoh_refuted."
  },
  {
   "property": "C33",
   "status": "proved",
   "theorems": [
    "C33_dns",
    "C33_doh",
    "C33_doh_invalid",
    "C33_doq",
    "C33_doq_invalid",
    "C33_odoh",
    "C33_odoh_invalid",
    "C33_bootstrap",
    "C33_doq_drop_refuted",
    "C33_odoh_plain"
   ],
   "note": "Answers are assumed to have padding options of the padding type (C23). The DoQ listener dereferences the nil answer of a drop: C33_doq_drop_refuted."
  },
  {
   "property": "C34",
   "status": "proved",
   "theorems": [
    "C34_none",
    "C34_proxy",
    "C34_earlier"
   ],
   "note": "net.ParseIP and SplitHostPort are variables."
  },
  {
   "property": "C35",
   "status": "proved",
   "theorems": [
    "C35_atomic",
    "C35_error",
    "C35_success",
    "C35_completes",
    "C35_no_temp",
    "C35_clean",
    "C35_durable_refuted"
   ],
   "note": "Any number of concurrent writers with the cleaner, one system call per step, every call may fail, process and machine crashes. A successful write is not durable since the directory is not synced (C35_durable_refuted). Assumed: random temporary names do not repeat, targets are not symbolic links."
  },
  {
   "property": "C36",
   "status": "proved",
   "theorems": [
    "C36_lines",
    "C36_history",
    "C36_file",
    "C36_cache_read",
    "C36_cache_write",
    "C36_restart",
    "C36_restart_refuted"
   ],
   "note": "HTTP and file loaders with the line scanner (limit 65536 bytes a line). The first load uses the cache file if it can be read, so it may be older than what the server has. Rules that end with a carriage return change on the way through the cache file (C36_restart_refuted)."
  },
  {
   "property": "C37",
   "status": "proved",
   "theorems": [
    "C37_parse",
    "C37_load",
    "C37_match"
   ],
   "note": ""
  },
  {
   "property": "C38",
   "status": "proved",
   "theorems": [
    "C38_hosts",
    "C38_fine"
   ],
   "note": "net.ParseIP and dns.ReverseAddr are arbitrary functions with the properties in ip_texts_ok. C38_limit_refuted: eleven, not maxHostsResponses = 10, addresses are kept."
  },
  {
   "property": "C39",
   "status": "proved",
   "theorems": [
    "C39_limits",
    "C39_select",
    "C39_in_range",
    "C39_other"
   ],
   "note": "TTLs and limits within 32 bits, which their types enforce."
  },
  {
   "property": "C40",
   "status": "proved",
   "theorems": [
    "C40_check",
    "C40_doh",
    "C40_odoh",
    "C40_doq",
    "C40_pipeline"
   ],
   "note": "all upstream clients"
  },
  {
   "property": "C41",
   "status": "proved",
   "theorems": [
    "C41_replace"
   ],
   "note": "Regular expressions are arbitrary functions on names."
  },
  {
   "property": "C42",
   "status": "proved",
   "theorems": [
    "C42_minimize",
    "C42_minimize_other",
    "C42_collapse",
    "C42_truncate"
   ],
   "note": "Collapse needs a question in the query; all listeners ensure one."
  },
  {
   "property": "C43",
   "status": "proved",
   "theorems": [
    "C43_verdict",
    "C43_ad",
    "C43_bogus",
    "C43_servfail",
    "C43_no_panic",
    "C43_drop_refuted",
    "C43_ad_refuted",
    "C43_sigonly_refuted",
    "C43_question_refuted",
    "C43_nxdomain_refuted"
   ],
   "note": "Concurrent runs over arbitrary cryptography, upstream answers, clock and store; names without dots inside labels. Refuted parts of the intuitive claim are kept as C43_*_refuted and named in the statement."
  },
  {
   "property": "C44",
   "status": "proved",
   "theorems": [
    "C44_chain",
    "C44_store",
    "C44_cache",
    "C44_depth",
    "C44_root_anchor",
    "C44_ds_owner_refuted",
    "C44_escaped_refuted",
    "C44_expired_refuted"
   ],
   "note": "Chain as an inductive predicate over labels; concurrent runs, arbitrary answers. Only anchors for the root are used. Refuted parts are kept as C44_*_refuted."
  },
  {
   "property": "C45",
   "status": "proved",
   "theorems": [
    "C45_insecure",
    "C45_delegation",
    "C45_nsec",
    "C45_nsec3",
    "C45_mixed_refuted"
   ],
   "note": "Verdict of the validator and meaning of the denial for authentic records. C45_mixed_refuted: one insecure record covers the whole answer."
  },
  {
   "property": "C46",
   "status": "proved",
   "theorems": [
    "C46_nxdomain",
    "C46_nodata",
    "C46_denial",
    "C46_delegation_refuted",
    "C46_cut_nodata_refuted",
    "C46_empty_nonterminal_refuted",
    "C46_root_wildcard_refuted"
   ],
   "note": "Soundness for the zone the records come from; the refuted theorems show what the code also accepts: parent-side records below or at a signed delegation, empty non-terminals, wildcards at the root."
  },
  {
   "property": "C47",
   "status": "proved",
   "theorems": [
    "C47_nxdomain",
    "C47_nxdomain_optout",
    "C47_denial",
    "C47_nodata",
    "C47_nodata_ds",
    "C47_delegation_refuted",
    "C47_own_record_refuted",
    "C47_wildcard_record_refuted",
    "C47_optout_wildcard_refuted"
   ],
   "note": "The hash is an arbitrary function without collisions. HashName, Match and Cover are the library's (trusted base). Refuted theorems give the accepted cases outside the statement."
  },
  {
   "property": "C48",
   "status": "proved",
   "theorems": [
    "C48_refl",
    "C48_antisym",
    "C48_trans",
    "C48_congruence",
    "C48_case",
    "C48_rfc4034",
    "C48_parent_first",
    "C48_contiguous",
    "C48_escaped_upper_refuted"
   ],
   "note": "Total preorder on all strings; the RFC 4034 order on names as the library writes them."
  },
  {
   "property": "C49",
   "status": "proved",
   "theorems": [
    "C49_do",
    "C49_plain",
    "C49_edns",
    "C49_upstream"
   ],
   "note": "Also covers the query sent upstream."
  },
  {
   "property": "C50",
   "status": "proved",
   "theorems": [
    "C50_doh_client",
    "C50_odoh_client",
    "C50_options",
    "C50_doq_client",
    "C50_doh_server",
    "C50_doq_server",
    "C50_method"
   ],
   "note": "Clients and servers; the QUIC library's states are inputs"
  },
  {
   "property": "C51",
   "status": "proved",
   "theorems": [
    "C51_one",
    "C51_others",
    "C51_abandoned",
    "C51_launched",
    "C51_stopped",
    "C51_kept",
    "C51_retry",
    "C51_alternate",
    "C51_settled",
    "C51_steps",
    "C51_settles",
    "C51_events",
    "C51_race_refuted",
    "C51_full_refuted",
    "C51_two_refuted"
   ],
   "note": "The limit of the kernel's event queue is not modelled, nor is WaitNetNSReady (its end is a step of the environment). Findings: C51_race_refuted (state read before the subscriber is registered), C51_full_refuted (dropped state is retried only at the next event), C51_two_refuted (supervisor gives up on an instance that does not stop and starts the next beside it)."
  },
  {
   "property": "C52",
   "status": "proved",
   "theorems": [
    "C52_starts",
    "C52_fails",
    "C52_ends",
    "C52_order",
    "C52_wired",
    "C52_listeners",
    "C52_same",
    "C52_twice_refuted",
    "C52_bootstrap_refuted"
   ],
   "note": "Elements with an empty id are left out. The graph library (heimdalr/dag) is modelled from its documentation. Findings: a group that names the same resolver twice (e.g. blocklist-resolver equal to its resolver) is refused (C52_twice_refuted); groups and routers cannot use the bootstrap resolver (C52_bootstrap_refuted)."
  },
  {
   "property": "C53",
   "status": "proved",
   "theorems": [
    "C53_restricted",
    "C53_allowed",
    "C53_malformed",
    "C53_created",
    "C53_failed",
    "C53_refused",
    "C53_closed",
    "C53_request",
    "C53_answer",
    "C53_error",
    "C53_client",
    "C53_client_refuted"
   ],
   "note": "All message sequences, kernel outcomes and send failures. Bytes beyond the 16th of a message are ignored by the code and in the model."
  },
  {
   "property": "C54",
   "status": "proved",
   "theorems": [
    "C54_hostname",
    "C54_endpoint",
    "C54_empty_label_refuted",
    "C54_long_label_refuted"
   ],
   "note": "Both directions for all strings. The check for empty labels in the code is unreachable: labels before the last may be empty, and there is no limit of 63 octets."
  },
  {
   "property": "C55",
   "status": "proved",
   "theorems": [
    "C55_threshold",
    "C55_defaults",
    "C55_counted",
    "C55_query",
    "C55_unmodified",
    "C55_key",
    "C55_answers",
    "C55_counts",
    "C55_again",
    "C55_no_more",
    "C55_race_refuted",
    "C55_window_refuted"
   ],
   "note": "All histories, schedules, removals from the caches and callbacks. The cache library is not part of the repository; its size limit is passed through and not modelled."
  },
  {
   "property": "C56",
   "status": "proved",
   "theorems": [
    "C56_order",
    "C56_complete",
    "C56_errors",
    "C56_full"
   ],
   "note": "all sequences of reads and of records"
  },
  {
   "property": "C57",
   "status": "proved",
   "theorems": [
    "C57_sent",
    "C57_once",
    "C57_reply",
    "C57_query",
    "C57_framing"
   ],
   "note": ""
  },
  {
   "property": "C58",
   "status": "proved",
   "theorems": [
    "C58_read",
    "C58_client",
    "C58_server"
   ],
   "note": ""
  },
  {
   "property": "C59",
   "status": "proved",
   "theorems": [
    "C59_state",
    "C59_answer",
    "C59_opcode_refuted"
   ],
   "note": "C59_opcode_refuted shows a history in which a NOTIFY is answered with the cached answer of an ordinary query."
  },
  {
   "property": "C60",
   "status": "proved",
   "theorems": [
    "C60_regexp_load",
    "C60_regexp",
    "C60_rule",
    "C60_multi"
   ],
   "note": ""
  },
  {
   "property": "C61",
   "status": "proved",
   "theorems": [
    "C61_plain",
    "C61_tls"
   ],
   "note": "DoT clients do not set a size (size 0)"
  },
  {
   "property": "C62",
   "status": "proved",
   "theorems": [
    "C62_open",
    "C62_current",
    "C62_multi",
    "C62_leak_refuted",
    "C62_complete"
   ],
   "note": "Step machine of refresh loops and queries with the RWMutex. That no reload leaves files open is refuted (C62_leak_refuted)."
  },
  {
   "property": "C63",
   "status": "proved",
   "theorems": [
    "C63_load",
    "C63_match",
    "C63_no_match",
    "C63_asn",
    "C63_zero_refuted",
    "C63_first",
    "C63_none",
    "C63_close",
    "C63_close_error",
    "C63_close_ok"
   ],
   "note": "C63_zero_refuted: rule 0 matches addresses the database knows nothing about."
  },
  {
   "property": "C64",
   "status": "proved",
   "theorems": [
    "C64_static",
    "C64_rejects",
    "C64_blank_refuted",
    "C64_template",
    "C64_rendered",
    "C64_input",
    "C64_template_refuted"
   ],
   "note": "C64_blank_refuted, C64_template_refuted: nil records from texts without a record."
  },
  {
   "property": "C65",
   "status": "proved",
   "theorems": [
    "C65_syslog",
    "C65_reported",
    "C65_down",
    "C65_question_refuted",
    "C65_querylog",
    "C65_querylog_question"
   ],
   "note": "Queries without a question would crash here (C65_question_refuted, C65_querylog_question); listeners do not let them through."
  },
  {
   "property": "C66",
   "status": "proved",
   "theorems": [
    "C66_forward",
    "C66_reject",
    "C66_host",
    "C66_relay",
    "C66_status",
    "C66_panic_refuted",
    "C66_open_refuted",
    "C66_truncated_refuted",
    "C66_modes"
   ],
   "note": "Findings: AllowedNet is not consulted (C66_open_refuted), an oversized body is truncated and sent on (C66_truncated_refuted), a target status below 100 panics the handler (C66_panic_refuted)."
  },
  {
   "property": "C67",
   "status": "proved",
   "theorems": [
    "C67_split",
    "C67_join",
    "C67_added",
    "C67_kept",
    "C67_url",
    "C67_twice",
    "C67_ipv6_refuted",
    "C67_template_refuted",
    "C67_local",
    "C67_resolved",
    "C67_dial",
    "C67_socks",
    "C67_socks_once",
    "C67_socks_refuted",
    "C67_socks_local"
   ],
   "note": "Findings: a bare IPv6 address gets no port (C67_ipv6_refuted), a template without a slash is dropped (C67_template_refuted), a failed local lookup makes the dialer send the name to the proxy for good (C67_socks_refuted)."
  },
  {
   "property": "C68",
   "status": "proved",
   "theorems": [
    "C68_error",
    "C68_values",
    "C68_total",
    "C68_leak_refuted",
    "C68_passthrough",
    "C68_exclusive",
    "C68_waits",
    "C68_returns",
    "C68_close",
    "C68_close_refuted",
    "C68_sandbox"
   ],
   "note": "Behaviour of gopher-lua as described at the top of Lua_model.v. Findings: C68_leak_refuted, C68_close_refuted."
  },
  {
   "property": "C69",
   "status": "proved",
   "theorems": [
    "C69_how",
    "C69_inside",
    "C69_complete",
    "C69_failure",
    "C69_descriptors",
    "C69_home",
    "C69_orderly",
    "C69_race_refuted",
    "C69_restore_refuted"
   ],
   "note": "Findings: the code saves the main thread's namespace, not its own (C69_race_refuted); an error when switching back is ignored and the thread reused (C69_restore_refuted)."
  },
  {
   "property": "C70",
   "status": "proved",
   "theorems": [
    "C70_listen_closed",
    "C70_packet_closed",
    "C70_dial_closed",
    "C70_listener",
    "C70_packet",
    "C70_v6only",
    "C70_dial",
    "C70_local",
    "C70_address",
    "C70_timeout",
    "C70_timeout_refuted"
   ],
   "note": "Linux. Results of system calls, literals and lookups quantified. listenUDPXSocket only wraps listenPacketXSocket. C70_timeout_refuted shows that the time limit restarts on every EINTR."
  },
  {
   "property": "C71",
   "status": "proved",
   "theorems": [
    "C71_server",
    "C71_dtls_server",
    "C71_mutual",
    "C71_open",
    "C71_plain",
    "C71_no_tls_refuted",
    "C71_client",
    "C71_dtls_config",
    "C71_trust",
    "C71_accepts",
    "C71_doh_name",
    "C71_dohquic_name",
    "C71_doq_name",
    "C71_dot_name",
    "C71_dtls_accepts",
    "C71_version",
    "C71_dot_refuted",
    "C71_dtls_refuted",
    "C71_doq_refuted"
   ],
   "note": "Handshakes are the libraries': what crypto/tls and pion/dtls do with a configuration is stated in Tls_model.v (server_accepts, client_accepts) from their documentation. C71_dot_refuted: a DoT client without server-name or bootstrap address checks the certificate against the looked-up address instead of the host name. C71_dtls_refuted: DTLS clients without bootstrap address check no name. C71_doq_refuted: server-name ignored. C71_no_tls_refuted: no-tls drops client authentication."
  },
  {
   "property": "C72",
   "status": "proved",
   "theorems": [
    "C72_place",
    "C72_refused",
    "C72_plain",
    "C72_dot",
    "C72_http",
    "C72_quic",
    "C72_dtls",
    "C72_version_refuted",
    "C72_dtls_address_refuted",
    "C72_dtls_options_refuted"
   ],
   "note": "Refuted for other protocols than plain DNS: ip-version ignored (C72_version_refuted), DTLS listeners ignore options and host names (C72_dtls_options_refuted, C72_dtls_address_refuted). dns.Server.ListenAndServe of miekg/dns from its documentation."
  },
  {
   "property": "C73",
   "status": "proved",
   "theorems": [
    "C73_read",
    "C73_header",
    "C73_unknown",
    "C73_accepts",
    "C73_write",
    "C73_refused",
    "C73_back",
    "C73_self",
    "C73_u64_refuted",
    "C73_wrap_refuted",
    "C73_new",
    "C73_new_accepts",
    "C73_new_order"
   ],
   "note": "Struct types of the DNS library are quantified (flat, or one flat struct embedded), lower-case names distinct; gopher-lua's value checks and float64 rounding modelled from documentation. C73_u64_refuted and C73_wrap_refuted show the exceptions named in the statement."
  },
  {
   "property": "C74",
   "status": "proved",
   "theorems": [
    "C74_read",
    "C74_write",
    "C74_accepts",
    "C74_refused",
    "C74_question_read",
    "C74_question_write",
    "C74_question_accepts",
    "C74_question_refused",
    "C74_question_through",
    "C74_question_copied",
    "C74_question_new",
    "C74_reply",
    "C74_ask",
    "C74_ask_accepts",
    "C74_is_edns0",
    "C74_set_edns0",
    "C74_set_edns0_accepts",
    "C74_opt_view",
    "C74_opt_read",
    "C74_opt_write",
    "C74_opt_accepts",
    "C74_opt_refused",
    "C74_opt_new",
    "C74_rcode_refuted",
    "C74_script",
    "C74_errors"
   ],
   "note": "Model of the store that scripts share; gopher-lua's Check functions and miekg/dns's SetReply, SetQuestion, SetEdns0, IsEdns0 and OPT methods written down from memory of documentation and source. Exception: extended_rcode does not read back (C74_rcode_refuted). Not modelled: capacity sharing of Go slices behind append, the Zero bit, metatables chosen by a script."
  },
  {
   "property": "C75",
   "status": "proved",
   "theorems": [
    "C75_metatable",
    "C75_types",
    "C75_read",
    "C75_names",
    "C75_write",
    "C75_accepts",
    "C75_other_type",
    "C75_new",
    "C75_new_accepts",
    "C75_new_ok",
    "C75_back",
    "C75_self",
    "C75_id_refuted",
    "C75_expire_refuted",
    "C75_family_refuted",
    "C75_script",
    "C75_errors",
    "C75_apart",
    "C75_through",
    "C75_constants",
    "C75_codes",
    "C75_client",
    "C75_error"
   ],
   "note": "All EDNS0 option types, constants, ClientInfo and Error. Exceptions proved as refuted statements: LLQ ids beyond 2^53 do not survive reading and writing; a received EXPIRE without value stays marked empty after an assignment; SUBNET family does not follow address. Number conversions of the language outside the exact range, net.IP text forms and dns.TypeToRR are quantified. Option types of the library that the scripts' registry does not know are outside the model."
  },
  {
   "property": "C76",
   "status": "proved",
   "theorems": [
    "C76_date",
    "C76_date_rfc",
    "C76_fetched",
    "C76_expired",
    "C76_current",
    "C76_choice",
    "C76_some",
    "C76_store",
    "C76_from_refuted",
    "C76_letters_refuted"
   ],
   "note": "Times in nanoseconds; HTTP client, XML decoder and clock are arbitrary functions. time.Parse is modelled from the Go library. C76_from_refuted and C76_letters_refuted show the exceptions."
  },
  {
   "property": "C77",
   "status": "proved",
   "theorems": [
    "C77_snapshot",
    "C77_newer",
    "C77_close",
    "C77_ends",
    "C77_unlocks",
    "C77_restarts",
    "C77_damaged"
   ],
   "note": "The replacement of the file is one step (C35); JSON text is abstract: values that decode to records or do not. The order of saves and the lock on the cache are modelled step by step; each cache operation under the lock is one step. After a crash of the machine an older file may come back (C35_durable_refuted)."
  },
  {
   "property": "C78",
   "status": "proved",
   "theorems": [
    "C78_quiet",
    "C78_ends",
    "C78_closed",
    "C78_left_open",
    "C78_drained",
    "C78_early",
    "C78_effective",
    "C78_completes",
    "C78_accounted",
    "C78_no_error",
    "C78_nil_refuted",
    "C78_lost_refuted",
    "C78_leak_refuted",
    "C78_spin_refuted"
   ],
   "note": "The servers of miekg/dns, net/http and quic-go are modelled by their documented behaviour (shutdown of dns.Server and http.Server waits, Close of QUIC does not); this behaviour is trusted."
  },
  {
   "property": "C79",
   "status": "proved",
   "theorems": [
    "C79_params",
    "C79_given",
    "C79_seen",
    "C79_escaped",
    "C79_request",
    "C79_proxied",
    "C79_preset",
    "C79_fresh",
    "C79_kept",
    "C79_failed",
    "C79_panics",
    "C79_direct",
    "C79_get_refuted",
    "C79_given_refuted",
    "C79_bootstrap_refuted",
    "C79_status_refuted"
   ],
   "note": "Query strings of net/url are modelled octet by octet; encryption, hex and the encoding of configurations are variables; times are those of the clock."
  },
  {
   "property": "C80",
   "status": "proved",
   "theorems": [
    "C80_abstract",
    "C80_owner",
    "C80_replaces",
    "C80_refuses",
    "C80_leaves",
    "C80_stop",
    "C80_ends",
    "C80_race_refuted",
    "C80_window_refuted",
    "C80_unlink_refuted",
    "C80_file_refuted",
    "C80_mode_refuted"
   ],
   "note": "Step machine of any number of servers with one path, system call by system call. Kernel semantics of bind, listen, connect and unlink for Unix sockets are modelled from documentation. The five _refuted theorems are the exceptions the statement names."
  },
  {
   "property": "C81",
   "status": "proved",
   "theorems": [
    "C81_one",
    "C81_exclusive",
    "C81_replay",
    "C81_cut",
    "C81_bounded",
    "C81_progress",
    "C81_recovers",
    "C81_limit_refuted",
    "C81_wait_refuted"
   ],
   "note": "Step machine of queries around the mutex of quicConnection. quic-go (OpenStream, CloseWithError, stream limits) from its documentation. The two _refuted theorems are the exceptions the statement names."
  },
  {
   "property": "C82",
   "status": "proved",
   "theorems": [
    "C82_stored",
    "C82_apart",
    "C82_left_out",
    "C82_full",
    "C82_limit",
    "C82_goes_on",
    "C82_ends",
    "C82_back",
    "C82_grown",
    "C82_grows",
    "C82_adapts",
    "C82_adapts_refuted"
   ],
   "note": "One Redis back end. Library: sync.Pool, PackBuffer packs in place if the length without compression and one byte fit, the Redis client does not use the value after Set returns. C82_back is for runs in which sync.Pool forgets no buffer. The exception is C82_adapts_refuted."
  },
  {
   "property": "C83",
   "status": "proved",
   "theorems": [
    "C83_first",
    "C83_dispatch",
    "C83_only_events",
    "C83_order",
    "C83_true",
    "C83_cancel",
    "C83_numbers",
    "C83_silent",
    "C83_wait",
    "C83_wait_ends",
    "C83_wait_timely",
    "C83_wait_notices",
    "C83_raced_refuted",
    "C83_slash_refuted",
    "C83_lost_refuted",
    "C83_full_refuted"
   ],
   "note": "Step machine of the watcher with the bounded queue of the kernel; the four exceptions have witnesses. The failing read that ends the watcher is not modelled (C51 has one subscriber and its supervisor)."
  },
  {
   "property": "C84",
   "status": "proved",
   "theorems": [
    "C84_exchange",
    "C84_round",
    "C84_answer",
    "C84_calls",
    "C84_hangs",
    "C84_ends",
    "C84_doq",
    "C84_pipeline",
    "C84_large",
    "C84_doh_refuted"
   ],
   "note": "The part of the resolver of the Go library that uses packetConn is modelled from knowledge of Go 1.25 (its source is not in /repo)."
  },
  {
   "property": "C85",
   "status": "proved",
   "theorems": [
    "C85_configuration",
    "C85_clients",
    "C85_element",
    "C85_validator",
    "C85_listener",
    "C85_doh",
    "C85_doq",
    "C85_doh_refuted",
    "C85_flag_refuted"
   ],
   "note": "Lua scripts are not among the elements, as a script may answer anything. Groups are the step machines of C12-C17. An element with several resolvers is given one function that may act as either. The Redis cache is without flushing and hardening. Truncate of the DNS library and the configured shuffling are assumed to keep ID and question. Exceptions C85_doh_refuted and C85_flag_refuted."
  },
  {
   "property": "C86",
   "status": "proved",
   "theorems": [
    "C86_record",
    "C86_with",
    "C86_stays",
    "C86_readonly",
    "C86_attrs",
    "C86_levels",
    "C86_level_error",
    "C86_odd_refuted",
    "C86_late_refuted"
   ],
   "note": "Time, program counter, groups of attributes and the output of handlers are not modelled. Exceptions C86_odd_refuted, C86_late_refuted."
  },
  {
   "property": "C87",
   "status": "proved",
   "theorems": [
    "C87_file",
    "C87_http",
    "C87_colon",
    "C87_query",
    "C87_old",
    "C87_response_ip",
    "C87_response_name",
    "C87_client",
    "C87_starts",
    "C87_refresh",
    "C87_allow_format_refuted",
    "C87_error_refuted",
    "C87_percent_refuted",
    "C87_refresh_refuted"
   ],
   "note": "End to end from the settings of a group to what it does with queries; matching of single lists, parseAuthority of net/url, text templates and reading of lists are parameters. The _refuted theorems are the exceptions the statement names."
  },
  {
   "property": "C88",
   "status": "proved",
   "theorems": [
    "C88_starts",
    "C88_ttl",
    "C88_ecs",
    "C88_edns0",
    "C88_replace",
    "C88_truncate",
    "C88_minimize",
    "C88_collapse",
    "C88_drop",
    "C88_static",
    "C88_template",
    "C88_dns64",
    "C88_fastest_tcp",
    "C88_rate",
    "C88_fail_rotate",
    "C88_fail_back",
    "C88_random",
    "C88_load_balance",
    "C88_penalty",
    "C88_no_penalty",
    "C88_resolvers"
   ],
   "note": "Composition of the construction in instantiateGroup with the models of the elements. For round-robin, fastest and request-dedup the resolvers are the only setting; their behaviour is C12, C17 and C20. For random the reset period is proved as a value; reactivation may happen at any time in the step machine."
  },
  {
   "property": "C89",
   "status": "proved",
   "theorems": [
    "C89_starts",
    "C89_served",
    "C89_kept",
    "C89_capacity",
    "C89_total",
    "C89_memory",
    "C89_redis",
    "C89_prefetch",
    "C89_syslog",
    "C89_querylog",
    "C89_lua",
    "C89_validator",
    "C89_type_refuted",
    "C89_order_refuted",
    "C89_eligible_refuted"
   ],
   "note": "Composition of the construction in instantiateGroup with the models of C05-C10, C43, C55, C65, C68 and C76. Histories start with an empty cache; loading a file is C08, and the behaviour of the Redis backend is C11: here its options. The _refuted theorems are the exceptions: a backend without a type, a response code written in two ways, and a TTL equal to the eligible one."
  },
  {
   "property": "C90",
   "status": "proved",
   "theorems": [
    "C90_plain",
    "C90_dot",
    "C90_dtls",
    "C90_doq",
    "C90_doh",
    "C90_odoh",
    "C90_http3",
    "C90_starts",
    "C90_starts_https",
    "C90_https",
    "C90_tls",
    "C90_timeout",
    "C90_size",
    "C90_no_proxy",
    "C90_proxy_refuted",
    "C90_bootstrap_refuted",
    "C90_local_refuted",
    "C90_family_refuted",
    "C90_quic_family_refuted",
    "C90_netns_refuted"
   ],
   "note": "The exceptions of the statement are the _refuted theorems; failures of the system while connecting and http.ProxyFromEnvironment are not modelled."
  },
  {
   "property": "C91",
   "status": "proved",
   "theorems": [
    "C91_starts",
    "C91_when",
    "C91_socket_plain",
    "C91_socket_dot",
    "C91_socket_http",
    "C91_socket_quic",
    "C91_socket_dtls",
    "C91_tls",
    "C91_messages",
    "C91_doh",
    "C91_doq",
    "C91_odoh_target",
    "C91_odoh_config",
    "C91_odoh_proxy",
    "C91_odoh_else",
    "C91_key",
    "C91_admin",
    "C91_udp_refuted",
    "C91_admin_refuted",
    "C91_target_refuted",
    "C91_mode_refuted",
    "C91_namespace_refuted"
   ],
   "note": "Composition of C32-C34, C66, C67, C71 and C72 over the settings. Addresses that are URLs or templates, which make no sense for listeners, are not described by the theorems about sockets. The order in which the listeners of the map are made is left open."
  },
  {
   "property": "C92",
   "status": "proved",
   "theorems": [
    "C92_starts",
    "C92_ends",
    "C92_elements",
    "C92_listeners",
    "C92_routed",
    "C92_confined",
    "C92_held",
    "C92_same",
    "C92_closes",
    "C92_command",
    "C92_mode",
    "C92_mode_refuted"
   ],
   "note": "The start as a whole, composing C26, C27, C52 and C87-C91; TOML and cobra are functions of the world. C92_mode_refuted: mode 0 of the socket server counts as none."
  },
  {
   "property": "C93",
   "status": "proved",
   "theorems": [
    "C93_dns_listener",
    "C93_doh_listener",
    "C93_doq_listener",
    "C93_doq_connection",
    "C93_blocklist",
    "C93_client_blocklist",
    "C93_cache",
    "C93_dns64",
    "C93_rate_limiter",
    "C93_validator",
    "C93_validator_runs",
    "C93_router",
    "C93_round_robin",
    "C93_fail_rotate",
    "C93_fail_back",
    "C93_fail_back_failover",
    "C93_random",
    "C93_random_gauge",
    "C93_load_balance",
    "C93_registry",
    "C93_names",
    "C93_random_gauge_refuted",
    "C93_random_failover_refuted",
    "C93_dns64_sum_refuted",
    "C93_published"
   ],
   "note": "Counters as additions beside the models of the calls. Not counted here: counters of clients, gauges of cache entries, queue lengths and round-trip times."
  },
  {
   "property": "C94",
   "status": "proved",
   "theorems": [
    "C94_doh",
    "C94_odoh",
    "C94_doq",
    "C94_pipeline",
    "C94_pipeline_errors",
    "C94_pipeline_write",
    "C94_pipeline_queue",
    "C94_answers_refuted",
    "C94_odoh_query_refuted"
   ],
   "note": "Errors of the network are told apart by their names (dial_errors, not_from_network). The full statements that responses are the answers returned and that ODoH queries are counted are false of the code: C94_answers_refuted, C94_odoh_query_refuted."
  },
  {
   "property": "C95",
   "status": "proved",
   "theorems": [
    "C95_signed",
    "C95_unsigned",
    "C95_keys",
    "C95_ends",
    "C95_skip_refuted",
    "C95_revoked_refuted"
   ],
   "note": "Completeness of the validator, the counterpart of C43 and C44. The denial part takes the acceptance of the NSEC and NSEC3 records by the denial checks as hypothesis of the answer, in any order of the records."
  },
  {
   "property": "C96",
   "status": "proved",
   "theorems": [
    "C96_nsec",
    "C96_nsec3",
    "C96_accepted",
    "C96_ent_refuted",
    "C96_optout_refuted"
   ],
   "note": "Converse of C46 and C47, composed with C95. Exceptions in C96_ent_refuted and C96_optout_refuted."
  },
  {
   "property": "C97",
   "status": "proved",
   "theorems": [
    "C97_keys",
    "C97_reply",
    "C97_no_downgrade",
    "C97_denial",
    "C97_sibling_refuted"
   ],
   "note": "The assumptions on signatures and zones are quantified hypotheses (Forge_spec.v), met by the example zones. C97_denial is for NSEC and for records of one zone; that records of the parent are taken as well is C46_delegation_refuted. AD of unsigned answers is as the upstream set it (C43)."
  },
  {
   "property": "C98",
   "status": "proved",
   "theorems": [
    "C98_lower",
    "C98_upper",
    "C98_fold",
    "C98_contains",
    "C98_prefix",
    "C98_suffix",
    "C98_trim",
    "C98_split",
    "C98_fields",
    "C98_itoa",
    "C98_atoi",
    "C98_fqdn"
   ],
   "note": "About the model of the library functions the code calls (ASCII; dns.Fqdn without escaped trailing dots)."
  },
  {
   "property": "C99",
   "status": "proved",
   "theorems": [
    "C99_assign",
    "C99_reply",
    "C99_plain_reply",
    "C99_edns0",
    "C99_set_edns0",
    "C99_do",
    "C99_codes",
    "C99_ptr",
    "C99_udpsize",
    "C99_echo",
    "C99_replayable"
   ],
   "note": "Functions of the DNS library (SetReply, SetRcode, IsEdns0, SetEdns0, SetDo) as modelled in Dns.v; messages are values, copies are not modelled here."
  }
 ]
}