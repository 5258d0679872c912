-Q theories Verif
theories/Base.v
theories/Base_proofs.v
theories/DomainDB_model.v
theories/DomainDB_spec.v
theories/DomainDB_proofs.v
theories/DomainDB_proofs2.v
theories/C01_domain_exact.v
theories/C02_domain_load.v
theories/Bytes.v
theories/Bytes_proofs.v
theories/Dns.v
theories/Net.v
theories/Blob_model.v
theories/Blob_spec.v
theories/Blob_proofs.v
theories/Lru_model.v
theories/Lru_spec.v
theories/Lru_proofs.v
theories/Lru_proofs2.v
theories/Cache_model.v
theories/Cache_spec.v
theories/Cache_proofs.v
theories/Cache_proofs2.v
theories/Cache_proofs3.v
theories/Cache_proofs4.v
theories/Shuffle_proofs.v
theories/Shuffle_spec.v
theories/Cache_proofs5.v
theories/C04_lru.v
theories/Cache_demo.v
theories/C05_cache_key.v
theories/C06_cache_aging.v
theories/C07_cache_lifetime.v
theories/C08_cache_file.v
theories/C09_nxdomain_hardening.v
theories/C10_shuffle.v
theories/C59_cache_opcode.v
theories/Groups_model.v
theories/Groups_spec.v
theories/Groups_proofs.v
theories/Groups_proofs2.v
theories/Groups_proofs3.v
theories/Groups_proofs4.v
theories/Groups_proofs5.v
theories/Groups_proofs6.v
theories/C12_roundrobin.v
theories/C13_failrotate.v
theories/C14_failback.v
theories/C15_random.v
theories/C16_loadbalance.v
theories/C17_fastest.v
theories/Cidr_model.v
theories/Cidr_spec.v
theories/Cidr_proofs.v
theories/Cidr_proofs2.v
theories/Cidr_proofs3.v
theories/C03_cidr.v
theories/Modifiers_model.v
theories/Modifiers_spec.v
theories/Modifiers_proofs.v
theories/Modifiers_proofs2.v
theories/Modifiers_proofs3.v
theories/C23_padding.v
theories/C24_ecs.v
theories/C25_edns0.v
theories/C39_ttl.v
theories/C41_replace.v
theories/C42_response.v
theories/Net_spec.v
theories/Net_proofs.v
theories/Router_model.v
theories/Router_spec.v
theories/Router_proofs.v
theories/C26_router.v
theories/C27_timeofday.v
theories/Lists_model.v
theories/Lists_spec.v
theories/Lists_proofs.v
theories/Lists_proofs2.v
theories/Blocklist_model.v
theories/Blocklist_spec.v
theories/Blocklist_proofs.v
theories/C28_blocklist.v
theories/C29_response_ip.v
theories/C30_response_name.v
theories/C31_client.v
theories/C37_mac.v
theories/C38_hosts.v
theories/C60_lists.v
theories/Listener_model.v
theories/Listener_spec.v
theories/Listener_proofs.v
theories/Listener_proofs2.v
theories/Listener_proofs3.v
theories/C32_acl.v
theories/C33_listeners.v
theories/C34_forwarded.v
theories/Client_model.v
theories/Client_spec.v
theories/Client_proofs.v
theories/Dtls_model.v
theories/Dtls_spec.v
theories/Dtls_proofs.v
theories/Client_proofs2.v
theories/C40_echo.v
theories/C50_early.v
theories/C56_dtls.v
theories/C57_doq.v
theories/C58_bodies.v
theories/C61_upstream.v
theories/Pipeline_model.v
theories/Pipeline_proofs.v
theories/Pipeline_proofs2.v
theories/Pipeline_spec.v
theories/Pipeline_proofs3.v
theories/C21_pipeline.v
theories/RateLimit_model.v
theories/RateLimit_spec.v
theories/RateLimit_proofs.v
theories/RateLimit_proofs2.v
theories/C19_ratelimit.v
theories/Dedup_model.v
theories/Dedup_spec.v
theories/Dedup_proofs.v
theories/Dedup_proofs2.v
theories/Dedup_proofs3.v
theories/C20_dedup.v
theories/Dns64_model.v
theories/Dns64_spec.v
theories/Dns64_proofs.v
theories/C22_dns64.v
theories/Hostname_model.v
theories/Hostname_spec.v
theories/Hostname_proofs.v
theories/C54_hostname.v
theories/FastestTcp_model.v
theories/FastestTcp_spec.v
theories/FastestTcp_proofs.v
theories/C18_fastesttcp.v
theories/Redis_model.v
theories/Redis_spec.v
theories/Redis_proofs.v
theories/Redis_demo.v
theories/C11_redis.v
theories/Name_model.v
theories/Name_spec.v
theories/Name_proofs.v
theories/C48_order.v
theories/Denial_model.v
theories/Denial_spec.v
theories/Denial_proofs.v
theories/Denial3_proofs.v
theories/Denial_demo.v
theories/C46_nsec.v
theories/C47_nsec3.v
theories/Keystore_model.v
theories/Dnssec_model.v
theories/Dnssec_spec.v
theories/Dnssec_proofs.v
theories/Dnssec_sys.v
theories/Dnssec_main.v
theories/Strip_spec.v
theories/Strip_proofs.v
theories/Dnssec_demo.v
theories/Dnssec_total.v
theories/C49_strip.v
theories/C43_authentic.v
theories/C44_chain.v
theories/C45_insecure.v
theories/AtomicFile_model.v
theories/AtomicFile_spec.v
theories/AtomicFile_proofs.v
theories/C35_atomic.v
theories/Loader_model.v
theories/Loader_spec.v
theories/Loader_proofs.v
theories/C36_loaders.v
theories/Refresh_model.v
theories/Refresh_spec.v
theories/Refresh_proofs.v
theories/C62_refresh.v
theories/XSocket_model.v
theories/XSocket_spec.v
theories/XSocket_proofs.v
theories/C53_sockets.v
theories/Prefetch_model.v
theories/Prefetch_spec.v
theories/Prefetch_proofs.v
theories/Prefetch_proofs2.v
theories/C55_prefetch.v
theories/Config_model.v
theories/Config_spec.v
theories/Config_proofs.v
theories/C52_config.v
theories/Netns_model.v
theories/Netns_spec.v
theories/Netns_proofs.v
theories/C51_netns.v
theories/Geo_model.v
theories/Geo_spec.v
theories/Geo_proofs.v
theories/C63_location.v
theories/Static_model.v
theories/Static_spec.v
theories/Static_proofs.v
theories/C64_static.v
theories/Logs_model.v
theories/Logs_spec.v
theories/Logs_proofs.v
theories/C65_logs.v
theories/Regex_model.v
theories/Regex_proofs.v
theories/Odoh_model.v
theories/Odoh_spec.v
theories/Odoh_proofs.v
theories/C66_odoh_proxy.v
theories/Addr_model.v
theories/Addr_spec.v
theories/Addr_proofs.v
theories/C67_addresses.v
theories/Lua_model.v
theories/Lua_spec.v
theories/Lua_proofs.v
theories/C68_lua.v
theories/RunNs_model.v
theories/RunNs_spec.v
theories/RunNs_proofs.v
theories/C69_run_in_netns.v
theories/XDial_model.v
theories/XDial_spec.v
theories/XDial_proofs.v
theories/C70_xsocket_sockets.v
theories/Tls_model.v
theories/Tls_spec.v
theories/Tls_proofs.v
theories/C71_tls.v
theories/LSock_model.v
theories/LSock_spec.v
theories/LSock_proofs.v
theories/C72_listener_sockets.v
theories/LuaVal_model.v
theories/LuaRR_model.v
theories/LuaRR_spec.v
theories/LuaVal_proofs.v
theories/LuaRR_proofs.v
theories/LuaRR_proofs2.v
theories/LuaRR_demo.v
theories/C73_lua_records.v
theories/LuaMsg_model.v
theories/LuaMsg_spec.v
theories/LuaMsg_proofs.v
theories/LuaMsg_proofs2.v
theories/LuaMsg_proofs3.v
theories/LuaMsg_proofs4.v
theories/C74_lua_messages.v
theories/LuaEdns_model.v
theories/LuaEdns_spec.v
theories/LuaEdns_proofs.v
theories/LuaEdns_proofs2.v
theories/LuaEdns_proofs3.v
theories/C75_lua_options.v
theories/Anchor_model.v
theories/Anchor_spec.v
theories/Anchor_proofs.v
theories/C76_anchors.v
theories/Save_model.v
theories/Save_spec.v
theories/Save_proofs.v
theories/Save_proofs2.v
theories/C77_saves.v
theories/Life_model.v
theories/Life_spec.v
theories/Life_proofs.v
theories/Life_proofs2.v
theories/C78_life.v
theories/OdohC_model.v
theories/OdohC_spec.v
theories/OdohC_proofs.v
theories/OdohC_proofs2.v
theories/C79_odoh_client.v
theories/SockFile_model.v
theories/SockFile_spec.v
theories/SockFile_proofs.v
theories/C80_sockfile.v
theories/DoqConn_model.v
theories/DoqConn_spec.v
theories/DoqConn_proofs.v
theories/C81_doq_connection.v
theories/Pool_model.v
theories/Pool_spec.v
theories/Pool_proofs.v
theories/C82_pool.v
theories/Watch_model.v
theories/Watch_spec.v
theories/Watch_proofs.v
theories/C83_netns_watch.v
theories/NetRes_model.v
theories/NetRes_spec.v
theories/NetRes_proofs.v
theories/C84_bootstrap.v
theories/Flow_model.v
theories/Flow_spec.v
theories/Flow_proofs.v
theories/C85_replies.v
theories/QLog_model.v
theories/QLog_spec.v
theories/QLog_proofs.v
theories/C86_query_logger.v
theories/ListCfg_model.v
theories/ListCfg_spec.v
theories/ListCfg_proofs.v
theories/ListCfg_proofs2.v
theories/ListCfg_proofs3.v
theories/ListCfg_proofs4.v
theories/C87_list_settings.v
theories/ModCfg_model.v
theories/ModCfg_spec.v
theories/ModCfg_proofs.v
theories/ModCfg_proofs2.v
theories/ModCfg_proofs3.v
theories/C88_settings.v
theories/CacheCfg_model.v
theories/CacheCfg_spec.v
theories/CacheCfg_proofs.v
theories/CacheCfg_proofs2.v
theories/CacheCfg_proofs3.v
theories/CacheCfg_demo.v
theories/C89_settings.v
theories/ResCfg_model.v
theories/ResCfg_spec.v
theories/ResCfg_proofs.v
theories/ResCfg_proofs2.v
theories/ResCfg_proofs3.v
theories/ResCfg_proofs4.v
theories/ResCfg_demo.v
theories/C90_resolvers.v
theories/LCfg_model.v
theories/LCfg_spec.v
theories/LCfg_proofs.v
theories/LCfg_proofs2.v
theories/LCfg_proofs3.v
theories/LCfg_proofs4.v
theories/LCfg_demo.v
theories/C91_listener_settings.v
theories/Start_model.v
theories/Start_spec.v
theories/Start_proofs.v
theories/Start_proofs2.v
theories/Start_proofs3.v
theories/Start_proofs4.v
theories/Start_proofs5.v
theories/Start_proofs6.v
theories/Start_demo.v
theories/C92_start.v
theories/Metrics_model.v
theories/Metrics_spec.v
theories/Metrics_proofs.v
theories/Metrics_proofs2.v
theories/Metrics_proofs3.v
theories/Metrics_proofs4.v
theories/Metrics_proofs5.v
theories/C93_counters.v
theories/Refresh_proofs2.v
theories/CMetrics_model.v
theories/CMetrics_spec.v
theories/CMetrics_proofs.v
theories/CMetrics_proofs2.v
theories/CMetrics_proofs3.v
theories/CMetrics_proofs4.v
theories/CMetrics_proofs5.v
theories/C94_client_counters.v
theories/Honest_spec.v
theories/Honest_proofs.v
theories/Honest_valid.v
theories/Honest_main.v
theories/Honest_demo.v
theories/C95_validator_accepts.v
theories/Prove_spec.v
theories/Prove_proofs.v
theories/Prove_demo.v
theories/C96_denials_accepted.v
theories/Forge_spec.v
theories/Forge_proofs.v
theories/Forge_demo.v
theories/C97_unforged.v
theories/Port_spec.v
theories/Port_proofs.v
theories/Port_proofs2.v
theories/Text_spec.v
theories/Text_proofs.v
theories/Text_proofs2.v
theories/C98_texts.v
theories/Own_proofs.v
theories/Conn_spec.v
theories/Metrics_proofs6.v
theories/Params_spec.v
theories/Params_proofs.v
theories/MsgPart_spec.v
theories/MsgPart_proofs.v
theories/C99_messages.v
theories/Prefetch_proofs3.v
theories/Life_proofs3.v
theories/Regexp_proofs.v
