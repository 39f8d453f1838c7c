{
 "claims": [
  {
   "property": "C01",
   "status": "proved",
   "theorems": [
    "route6_history_lpm",
    "lpm_is_unique",
    "route6_add_succeeds_if_room",
    "route6_lookup_reads_past_address_refuted"
   ],
   "note": "All histories, prefix lengths 0..128. When /128 routes are installed the code reads bit 128 of the address buffer, so for B=128 the theorem assumes a 17th readable byte (its value is irrelevant); the refuted theorem shows the read."
  },
  {
   "property": "C02",
   "status": "partial",
   "theorems": [
    "route6_failed_add_no_effect_partial",
    "route6_failed_add_reads_past_address_refuted"
   ],
   "note": "No effect on lookups and node count is proved; the 'never reads outside the 16-byte address' part is false (refuted with a witness)."
  },
  {
   "property": "C03",
   "status": "proved",
   "theorems": [
    "route6_pool_partition"
   ],
   "note": ""
  },
  {
   "property": "C04",
   "status": "proved",
   "theorems": [
    "route4_history_lpm",
    "route4_add_succeeds_if_room",
    "route4_default_route_add_refuted",
    "route4_search_exact_finds_absent_route_refuted"
   ],
   "note": "Prefix lengths 1..32 as stated; length 0 is UB in this build (refuted theorem)."
  },
  {
   "property": "C05",
   "status": "proved",
   "theorems": [
    "route4_failed_add_no_effect",
    "route4_pool_partition"
   ],
   "note": ""
  },
  {
   "property": "C06",
   "status": "proved",
   "theorems": [
    "mtrie_adds_lpm",
    "mtrie_adds_succeed"
   ],
   "note": "All histories of additions, any number of tables (refused additions included), prefix lengths 1..32."
  },
  {
   "property": "C07",
   "status": "partial",
   "theorems": [
    "mtrie_history_lpm_partial",
    "mtrie_deleted_route_returned_refuted",
    "mtrie_foreign_route_returned_refuted"
   ],
   "note": "The full statement is false of the code (two refutations). Proved for histories in which no deletion removes the last route longer than 16 (24) bits of its /16 (/24), with fewer than 65536 operations and enough tables and rules."
  },
  {
   "property": "C08",
   "status": "partial",
   "theorems": [
    "mtrie_default_route_undefined_refuted",
    "mtrie_default_route_hides_refuted"
   ],
   "note": "False of the code: refuted both under the C standard (undefined shift) and with the hardware shift."
  },
  {
   "property": "C09",
   "status": "partial",
   "theorems": [
    "mtrie_delete_null_table_refuted",
    "mtrie_delete_safe_partial"
   ],
   "note": "False of the code after a refused addition (refuted); proved on the histories of C07."
  },
  {
   "property": "C10",
   "status": "partial",
   "theorems": [
    "route4_vrfs_isolated",
    "mtrie_vrfs_isolated",
    "route6_vrfs_not_isolated_refuted"
   ],
   "note": "IPv4 proved for the radix build, and for the MTRIE build on the histories of C07; for IPv6 the property is false, the library has one IPv6 table."
  },
  {
   "property": "C100",
   "status": "partial",
   "theorems": [
    "mcast_api",
    "mcast_filter_partial",
    "mcast_blocked_passes_refuted",
    "mcast_block_refuted",
    "mcast_set_empty_refuted",
    "mcast_set_replace_refuted",
    "mcast_group_limit_refuted"
   ],
   "note": "Results and memberships are exact (mcast_api) when each set filter call has a source and leaves room for the old ones, and all sources named fit the group limit; delivery is right but for blocked sources, which always pass (mcast_blocked_passes_refuted)."
  },
  {
   "property": "C101",
   "status": "partial",
   "theorems": [
    "mcast_group_counts",
    "mcast_group_mode_partial",
    "mcast_source_mode_partial",
    "mcast_group_mode_refuted",
    "mcast_group_include_count_refuted",
    "mcast_group_asm_refuted",
    "mcast_source_mode_refuted"
   ],
   "note": "Existence, reference count and all counts but that of INCLUDE members are exact for the histories of C100; the filter mode while no INCLUDE list is emptied by leaving its last source (refuted otherwise); the reported mode of a source unless one member includes what all EXCLUDE members exclude (refuted then)."
  },
  {
   "property": "C102",
   "status": "partial",
   "theorems": [
    "udp_group_delivery",
    "udp_multicast_partial",
    "udp_group_refuted"
   ],
   "note": "Exact when all sockets it is for share the port and take packets; for groups after every history of C100, for sources no membership of the group excludes (those pass: mcast_blocked_passes_refuted). A socket that does not share its port hides the ones behind it (udp_group_refuted)."
  },
  {
   "property": "C103",
   "status": "partial",
   "theorems": [
    "udp_packets",
    "udp_unicast",
    "udp_header_partial",
    "udp_closed_port_refuted",
    "udp_header_refuted"
   ],
   "note": "Holds but for datagrams to ports nobody is bound to, whose packet is lost (udp_closed_port_refuted), and for packets with less than a UDP header after the IP header, read beyond their end (udp_header_refuted)."
  },
  {
   "property": "C104",
   "status": "partial",
   "theorems": [
    "vxlan_get_sound",
    "vxlan_exact_partial",
    "vxlan_collision_refuted",
    "vxlan_second_refuted",
    "vxlan_race_refuted",
    "vxlan_race_reachable",
    "vxlan_age_refuted"
   ],
   "note": "One thread: an address found was learned for that MAC within two hours (not one: vxlan_age_refuted) and three minutes; exact for MACs of different homes. A MAC whose home is taken is not learned (vxlan_collision_refuted); another thread may see the address of the previous owner of the entry (vxlan_race_reachable). Time stays below 2^32 - 180000 ticks (2.7 years)."
  },
  {
   "property": "C105",
   "status": "partial",
   "theorems": [
    "gre_encapsulates",
    "gre_decapsulates",
    "gre_roundtrip",
    "gre_options_partial",
    "vxlan_roundtrip",
    "vxlan_length_partial",
    "gre_key_refuted",
    "gre_vlan_refuted"
   ],
   "note": "Round trips hold without GRE options and VLAN on the input; options are skipped on big-endian machines only (gre_key_refuted); on a VLAN the link addresses are wrong (gre_vlan_refuted); lengths while they fit 16 bits."
  },
  {
   "property": "C106",
   "status": "partial",
   "theorems": [
    "in6_cksum_rfc2460_partial",
    "in6_cksum_second_word_refuted"
   ],
   "note": "Every packet under the segmentation limits of C14 and for addresses without a second word in link scope; false for link-local and link-scope multicast addresses whose second word is not zero (in6_cksum_second_word_refuted)."
  },
  {
   "property": "C107",
   "status": "partial",
   "theorems": [
    "ns_output_wellformed",
    "na_output_wellformed",
    "nd_resolve_onlink",
    "nd_resolve_gateway_refuted",
    "na_solicited_flag_refuted"
   ],
   "note": "All messages are well formed and verify; but a solicitation for a destination behind a gateway asks for the destination, not the gateway (nd_resolve_gateway_refuted), and advertisements never set the Solicited flag (na_solicited_flag_refuted)."
  },
  {
   "property": "C108",
   "status": "proved",
   "theorems": [
    "nd_exchange_resolves"
   ],
   "note": "For all hosts whose addresses have no second word in link scope; B learns A's MAC unless A uses a link-local address, then it only answers."
  },
  {
   "property": "C109",
   "status": "partial",
   "theorems": [
    "nd_input_only_verified",
    "nd_hop_limit_refuted",
    "nd_dad_reads_past_packet_refuted",
    "ns_for_foreign_target_answered_refuted",
    "na_option_mac_ignored_refuted"
   ],
   "note": "Length, code, type and checksum are checked; the hop limit, the target and the option's address are not, and the option is read past the end of the packet."
  },
  {
   "property": "C11",
   "status": "proved",
   "theorems": [
    "cksum_buffer_rfc1071"
   ],
   "note": ""
  },
  {
   "property": "C110",
   "status": "partial",
   "theorems": [
    "icmp6_error_walk_safe",
    "icmp6_error_notice",
    "udp6_error_ports_partial",
    "udp6_error_ports_refuted"
   ],
   "note": "Termination, memory safety of the walk and exactness for every well-formed chain; false of the UDP handler, which reads the ports at an offset that a malformed last header puts outside the packet (udp6_error_ports_refuted)."
  },
  {
   "property": "C111",
   "status": "partial",
   "theorems": [
    "ifnet_name_spelled",
    "ifnet_name_understood",
    "ifnet_name_roundtrip",
    "ifnet_name_injective",
    "ifnet_name_fits",
    "ifnet_name_alias_refuted",
    "ifnet_name_nonsense_refuted"
   ],
   "note": "All but the last sentence, which is false: fp8.1 is taken for lo1, fp10.5 for gre5, fpga for fp0 (ifnet_name_alias_refuted, ifnet_name_nonsense_refuted)."
  },
  {
   "property": "C112",
   "status": "proved",
   "theorems": [
    "link_local_rfc4291",
    "link_local_injective"
   ],
   "note": ""
  },
  {
   "property": "C113",
   "status": "partial",
   "theorems": [
    "udp6_calls_return",
    "udp6_delivery",
    "udp6_delivery_only_v6",
    "udp6_connect",
    "udp6_disconnect",
    "udp4_delivery_partial",
    "udp4_stolen_by_v6only_refuted",
    "udp4_to_v6_address_refuted"
   ],
   "note": "IPv6 delivery is proved in full. IPv4 delivery is proved for ports no IPv6 socket is bound to: an IPv6-only socket takes IPv4 datagrams, and one whose IPv6 address ends in the destination (or in zeros) takes them too (udp4_stolen_by_v6only_refuted, udp4_to_v6_address_refuted)."
  },
  {
   "property": "C114",
   "status": "partial",
   "theorems": [
    "udp6_bind_named",
    "udp6_bind_auto",
    "udp6_bind_exclusive_partial",
    "udp6_failed_bind_effect_refuted"
   ],
   "note": "Named and automatic binds are proved; exclusiveness for histories without sharing options and disconnects; the last clause is false: a refused bind makes a dual-stack socket IPv6-only (udp6_failed_bind_effect_refuted)."
  },
  {
   "property": "C115",
   "status": "proved",
   "theorems": [
    "socket_offered",
    "socket_refused"
   ],
   "note": ""
  },
  {
   "property": "C116",
   "status": "partial",
   "theorems": [
    "ip4_dispatch",
    "ip6_dispatch_partial",
    "ip6_dispatch_overrun_refuted"
   ],
   "note": "IPv4 is proved in full. IPv6 is proved for every packet but an ICMPv6 message meant for the slow path (any neighbour advertisement, any unknown type): for those ofp_icmp6_input returns continue with next header 257 and the loop reads beyond ofp_ip6_protox (ip6_dispatch_overrun_refuted)."
  },
  {
   "property": "C117",
   "status": "partial",
   "theorems": [
    "hashinit_power_of_two",
    "pcb_hash_tables",
    "pcb_hash_rss_partial",
    "pcb_hash_rss_refuted"
   ],
   "note": "All but the last clause: with OFP_RSS accesses stay inside, but all CPUs share the two tables of the shared memory, each under its own lock, and the port mask is stored in the wrong field, so that all ports share one chain (pcb_hash_rss_refuted)."
  },
  {
   "property": "C12",
   "status": "proved",
   "theorems": [
    "cksum_stored_verifies",
    "cksum_detects_word_change"
   ],
   "note": ""
  },
  {
   "property": "C13",
   "status": "proved",
   "theorems": [
    "cksum_iph_rfc1071"
   ],
   "note": ""
  },
  {
   "property": "C14",
   "status": "partial",
   "theorems": [
    "cksum_packet_rfc1071_partial",
    "cksum_packet_later_start_refuted",
    "cksum_packet_later_end_refuted",
    "cksum_packet_empty_segment_diverges_refuted"
   ],
   "note": "The full statement is false of the code (three refutations); proved for ranges starting in the first segment and ending in it or at a segment boundary."
  },
  {
   "property": "C15",
   "status": "partial",
   "theorems": [
    "in4_cksum_rfc1071_partial",
    "in4_cksum_stored_verifies"
   ],
   "note": "Same segmentation restriction as C14."
  },
  {
   "property": "C16",
   "status": "partial",
   "theorems": [
    "long_timer_on_time_partial",
    "long_timer_wraps",
    "long_timer_too_long_refuted"
   ],
   "note": "Proved for timeouts of 1..8192 s under every interleaving; longer timeouts fire early (refuted), exactly after ((s-1) mod 8192)+1 ticks."
  },
  {
   "property": "C17",
   "status": "proved",
   "theorems": [
    "long_timer_once",
    "short_cancel_still_fires_refuted"
   ],
   "note": "Long timers, every interleaving of the lock-protected sections, at most 2^50 long starts. The same claim for short timers is false (refuted theorem)."
  },
  {
   "property": "C18",
   "status": "proved",
   "theorems": [
    "long_handles_distinct",
    "long_handle_not_short"
   ],
   "note": "ODP is assumed to return short handles with the top bit clear, as OFP_TIMER_MASK requires."
  },
  {
   "property": "C19",
   "status": "partial",
   "theorems": [
    "reass_delivers_received_partial",
    "reass_short_packet_refuted",
    "reass_length_wraps_refuted"
   ],
   "note": "Proved for every history of fragments whose length field is consistent with header and data. Refuted without that hypothesis (the receive path does not check it: out of bounds read), and the 16-bit length field of the result can wrap when header lengths differ."
  },
  {
   "property": "C20",
   "status": "proved",
   "theorems": [
    "reass_any_order"
   ],
   "note": "2..17 fragments, any order, other datagrams interleaved, from any reachable state below the queue limit."
  },
  {
   "property": "C21",
   "status": "proved",
   "theorems": [
    "reass_other_datagrams_untouched"
   ],
   "note": "every reachable state, hash collisions included; whole queue (fragments, count, time) unchanged."
  },
  {
   "property": "C22",
   "status": "partial",
   "theorems": [
    "reass_counter_partial",
    "reass_limit_permanent_refuted"
   ],
   "note": "The claim is false: abandoned datagrams stay counted; after 1025 of them every fragment is refused for ever. Proved: exact law of the counter, and it never under-counts."
  },
  {
   "property": "C23",
   "status": "partial",
   "theorems": [
    "reass_lock_balanced_partial",
    "reass_unlock_unlocked_refuted"
   ],
   "note": "False on the over-limit path, which releases a lock it does not hold; proved for all other calls."
  },
  {
   "property": "C24",
   "status": "partial",
   "theorems": [
    "tcp_reass_stream",
    "tcp_reass_bytes",
    "tcp_reass_total",
    "tcp_reass_padding_refuted"
   ],
   "note": "Proved for all histories of segments whose packet holds exactly the segment's bytes, any order, overlap, duplication and wrap. Refuted without that hypothesis: link-layer padding after the segment is not removed on input and reaches the reader."
  },
  {
   "property": "C25",
   "status": "proved",
   "theorems": [
    "tcp_reass_queue_sorted",
    "tcp_reass_queue_bounded",
    "tcp_reass_packets_conserved"
   ],
   "note": ""
  },
  {
   "property": "C26",
   "status": "partial",
   "theorems": [
    "tcp_reass_flush_empties_partial",
    "tcp_reass_flush_frees_refuted"
   ],
   "note": "The queue is emptied and the entries given back, but the packets are not freed (refuted)."
  },
  {
   "property": "C27",
   "status": "proved",
   "theorems": [
    "seq_compare_correct",
    "tstmp_compare_correct",
    "seq_translation_invariant",
    "seq_trichotomy",
    "seq_half_window_ambiguous"
   ],
   "note": ""
  },
  {
   "property": "C28",
   "status": "proved",
   "theorems": [
    "brlock_exclusion",
    "brlock_readers_share",
    "brlock_no_leak",
    "brlock_no_deadlock",
    "brlock_all_served"
   ],
   "note": "Sequentially consistent interleaving of spinlock operations; any number of threads."
  },
  {
   "property": "C29",
   "status": "partial",
   "theorems": [
    "epoll_set_is_map_partial",
    "epoll_ctl_errors",
    "epoll_bad_fd_refuted"
   ],
   "note": "Every history for descriptors other than -1; descriptor -1 marks free slots and is not refused (refuted), EBADF is never returned because the socket look-up never fails."
  },
  {
   "property": "C30",
   "status": "proved",
   "theorems": [
    "epoll_wait_reports_ready",
    "epoll_wait_errors"
   ],
   "note": ""
  },
  {
   "property": "C31",
   "status": "proved",
   "theorems": [
    "arp_calls_defined",
    "arp_lookup_last_learned",
    "arp_get_mac_by_idx_last_learned"
   ],
   "note": "any hash, any entry count, any interleaving of whole calls; the unlocked read of the per-set cache racing with a writer inside one call is not modelled"
  },
  {
   "property": "C32",
   "status": "partial",
   "theorems": [
    "arp_refcount_exact",
    "arp_referenced_entry_kept_partial",
    "arp_route_index_stable_partial",
    "arp_pool_partition",
    "arp_flush_recycles_route_entry_refuted",
    "arp_add_route_race_refuted"
   ],
   "note": "holds except across 'arp flush' (refuted) and when ageing runs between the two halves of add_route (refuted)"
  },
  {
   "property": "C33",
   "status": "partial",
   "theorems": [
    "arp_packets_conserved_partial",
    "arp_learn_sends_pending_partial",
    "arp_output_outcome",
    "arp_waiting_order_refuted",
    "arp_timeout_leaks_packets_refuted"
   ],
   "note": "each accepted packet is sent at most once and exactly the pending ones are sent on resolution; but in reverse order, and packets of a removed entry are never freed (both refuted)"
  },
  {
   "property": "C34",
   "status": "partial",
   "theorems": [
    "frag_exact",
    "frag_not_needed",
    "frag_dont_fragment",
    "frag_failure_sends_prefix",
    "frag_reassemble_any_order",
    "frag_reassemble_header",
    "frag_again",
    "frag_zero_length_option_refuted",
    "frag_short_header_refuted",
    "frag_tiny_mtu_refuted"
   ],
   "note": "Proved for legal option lists, header lengths >= 5 words and reassembly of at most 17 fragments (the limit of the reassembler). A zero-length option makes the loop run for ever, a header length below 5 copies a negative size, an MTU with less than 8 bytes of room never ends (refuted)."
  },
  {
   "property": "C35",
   "status": "partial",
   "theorems": [
    "strerror_total_partial",
    "strerror_matches_macros",
    "strerror_int_min_refuted"
   ],
   "note": "All ints but INT_MIN, whose negation overflows (refuted)."
  },
  {
   "property": "C36",
   "status": "partial",
   "theorems": [
    "uma_zones_partial",
    "uma_destroy_past_end_refuted",
    "uma_alloc_after_destroy_refuted"
   ],
   "note": "All histories that do not destroy zone 32 (read outside the table, refuted) nor allocate from a destroyed zone (refuted)."
  },
  {
   "property": "C37",
   "status": "partial",
   "theorems": [
    "avl_any_history",
    "avl_get_by_key_any_history",
    "avl_most_any_history",
    "avl_least_any_history",
    "avl_iterate_any_history",
    "avl_walk_any_history",
    "avl_get_by_index_partial",
    "avl_index_range_partial",
    "avl_span_partial",
    "avl_delete_miss_breaks_index_refuted",
    "avl_insert_failure_breaks_index_refuted",
    "avl_span_of_empty_tree_refuted",
    "avl_range_at_end_refuted"
   ],
   "note": "Membership, order and look-ups by key: every history. Positions (index, range, span): proved for trees on which no insertion was refused and no deletion missed its key; both break positions (refuted), as do empty ranges at the end (refuted)."
  },
  {
   "property": "C38",
   "status": "proved",
   "theorems": [
    "timer_resources_conserved"
   ],
   "note": ""
  },
  {
   "property": "C39",
   "status": "partial",
   "theorems": [
    "wheel_stops_refuted"
   ],
   "note": "False of the code: refuted."
  },
  {
   "property": "C40",
   "status": "partial",
   "theorems": [
    "reass_fragment_count_partial",
    "reass_fragment_limit_refuted"
   ],
   "note": "False: a malformed fragment decrements the count; proved for histories without malformed fragments."
  },
  {
   "property": "C41",
   "status": "partial",
   "theorems": [
    "reass_lifetime_partial",
    "reass_lifetime_refuted"
   ],
   "note": "False: a fragment that becomes first brings an uninitialised time; proved for datagrams with one fragment alone in their bucket."
  },
  {
   "property": "C42",
   "status": "proved",
   "theorems": [
    "reass_packets_conserved"
   ],
   "note": "every history of fragments with consistent lengths."
  },
  {
   "property": "C43",
   "status": "proved",
   "theorems": [
    "tcp_reass_first_gap",
    "tcp_reass_first_gap_established",
    "tcp_reass_drop_only"
   ],
   "note": ""
  },
  {
   "property": "C44",
   "status": "proved",
   "theorems": [
    "tcp_reass_entries_conserved"
   ],
   "note": ""
  },
  {
   "property": "C45",
   "status": "partial",
   "theorems": [
    "fd_set_ok",
    "fd_clr_ok",
    "fd_isset_ok",
    "fd_zero_ok",
    "select_ok",
    "fd_range_refuted",
    "select_long_timeout_refuted"
   ],
   "note": "Proved for the descriptor range and all readiness; descriptors outside it and nfds beyond it are not checked (refuted); timeouts are truncated to 32 bits of microseconds (refuted)."
  },
  {
   "property": "C46",
   "status": "partial",
   "theorems": [
    "avl_any_history",
    "avl_tree_record_lost_refuted"
   ],
   "note": "One call at a time; the tree record is lost when a tree cannot get its root node (refuted). The pool is shared between trees but the code only locks per tree, so concurrent calls on two trees are not covered."
  },
  {
   "property": "C47",
   "status": "proved",
   "theorems": [
    "sockbuf_is_a_byte_queue",
    "sockbuf_drop_is_a_suffix",
    "flush_frees_everything",
    "flush_resets_the_count_refuted"
   ],
   "note": "Every history of appends, drops, copies and queries. Beyond the statement: a flush frees the packets but leaves the byte count (refuted)."
  },
  {
   "property": "C48",
   "status": "partial",
   "theorems": [
    "recv_conserves_the_stream",
    "recv_short_only_for_a_reason",
    "recv_with_data_returns",
    "recv_of_nothing",
    "recv_peek_shows_the_stream_refuted",
    "recv_peek_returns_refuted",
    "recvfrom_error_takes_nothing_refuted",
    "two_readers_share_the_stream_refuted"
   ],
   "note": "Proved for one reader without MSG_PEEK. MSG_PEEK beyond the first packet, an error with MSG_WAITALL and two concurrent readers are refuted."
  },
  {
   "property": "C49",
   "status": "partial",
   "theorems": [
    "datagrams_come_out_in_order",
    "datagram_length_is_trusted_refuted"
   ],
   "note": "Proved for datagrams whose UDP length field is at least 8 and fits the packet ; otherwise refuted, and UDP input does not check it (the check is compiled out)."
  },
  {
   "property": "C50",
   "status": "partial",
   "theorems": [
    "send_counts_what_it_queues",
    "send_oob_counts_what_it_queues_refuted",
    "send_error_means_nothing_queued_refuted",
    "send_with_callback_queues_refuted"
   ],
   "note": "Proved for one sender, no MSG_OOB, no event callback and a protocol whose errors mean nothing was queued; each of the exceptions is refuted."
  },
  {
   "property": "C51",
   "status": "partial",
   "theorems": [
    "sleep_histories",
    "wakeup_reaches_its_channel",
    "reader_sleeps_only_on_empty",
    "writer_wakes_all_readers",
    "timeout_wakes_who_asked_refuted",
    "select_sleeps_only_on_empty_refuted",
    "select_race_refuted"
   ],
   "note": "Readers: proved. Timeouts wake the wrong sleeper of a shared channel and ofp_select misses arrivals (both refuted)."
  },
  {
   "property": "C52",
   "status": "partial",
   "theorems": [
    "ipsec_out_decision_partial",
    "ipsec_in_decision_partial",
    "ipsec_decider_unique",
    "ipsec_any_address_refuted",
    "ipsec_bypass_bound_refuted"
   ],
   "note": "Every history of legal calls; ANY-address ranges (0,0) match nothing (refuted), and an SA bound to a BYPASS policy is applied (refuted)."
  },
  {
   "property": "C53",
   "status": "partial",
   "theorems": [
    "ipsec_sp_create_partial",
    "ipsec_sa_create_partial",
    "ipsec_handle_stable_partial",
    "ipsec_sp_info_partial",
    "ipsec_sa_info_partial",
    "ipsec_create_destroy_race_refuted"
   ],
   "note": "Calls one at a time; a policy destroyed by another thread inside ofp_ipsec_sp_create stays in force (refuted)."
  },
  {
   "property": "C54",
   "status": "partial",
   "theorems": [
    "ipsec_calls_return_partial",
    "ipsec_double_destroy_refuted"
   ],
   "note": "All legal histories; destroying a policy twice with a valid handle loops the list (refuted)."
  },
  {
   "property": "C55",
   "status": "partial",
   "theorems": [
    "ipsec_input_check_partial",
    "ipsec_icmp_error_refuted"
   ],
   "note": "All packets but ICMP that does not itself fit the selectors; ICMP errors are looked up at a wrong offset (refuted)."
  },
  {
   "property": "C56",
   "status": "partial",
   "theorems": [
    "ipsec_lock_released_partial",
    "ipsec_discard_bound_refuted"
   ],
   "note": "For SAs bound to PROTECT policies; with a DISCARD policy the lock stays held (refuted)."
  },
  {
   "property": "C57",
   "status": "partial",
   "theorems": [
    "ipsec_ids_unique_partial",
    "ipsec_find_partial",
    "ipsec_sp_iterate_partial",
    "ipsec_iterate_destroyed_refuted",
    "ipsec_sa_destroy_leak_refuted",
    "ipsec_sa_undestroyable_refuted"
   ],
   "note": "Iteration from an installed policy; from a destroyed one it yields freed records (refuted); a failing ODP destroy or disable loses the SA record (refuted)."
  },
  {
   "property": "C58",
   "status": "partial",
   "theorems": [
    "ip4_forward_partial",
    "ip4_forward_hops",
    "ip4_forward_decides",
    "ip4_forward_defined_partial",
    "ip4_forward_bad_length_refuted",
    "ip4_forward_redirect_refuted"
   ],
   "note": "For headers of at least five words inside the data: header and total lengths are not checked by the code (refuted), and with redirects compiled in an SA without a route dereferences NULL (refuted)."
  },
  {
   "property": "C59",
   "status": "partial",
   "theorems": [
    "icmp_error_message_partial",
    "icmp_error_when",
    "icmp_no_error_about_error",
    "icmp_error_short_packet_refuted",
    "icmp_error_quote_refuted",
    "icmp_error_more_fragments_refuted"
   ],
   "note": "For packets of at least twice the header plus 16 bytes and length fields whose unconverted value is harmless; short packets are read beyond their end, some lengths quote no data, errors about first fragments carry the more-fragments bit (all refuted)."
  },
  {
   "property": "C60",
   "status": "partial",
   "theorems": [
    "icmp_echo_answered",
    "icmp_bad_checksum_dropped",
    "icmp_replies_only_to_requests",
    "icmp_short_message_refuted"
   ],
   "note": "The minimum length is compared with the whole IP length: messages shorter than 8 bytes are answered, a short timestamp request is written beyond its end (refuted)."
  },
  {
   "property": "C61",
   "status": "partial",
   "theorems": [
    "pcb_calls_return",
    "pcb_delivery_partial",
    "pcb_delivery_only",
    "pcb_vrf_separation_refuted"
   ],
   "note": "IPv4 sockets; VRFs are ignored by the lookup (sockets of different VRFs share one port space: refuted). IPv6 PCBs, TIME_WAIT entries and the multicast loop of UDP are not modelled."
  },
  {
   "property": "C62",
   "status": "partial",
   "theorems": [
    "pcb_bind_named_partial",
    "pcb_bind_auto",
    "pcb_bind_twice",
    "pcb_bound_once_partial",
    "pcb_bound_exclusive_partial",
    "pcb_reuseport_refuted",
    "pcb_disconnect_bound_once_refuted",
    "pcb_sendto_exclusive_refuted"
   ],
   "note": "The results of bind are exact; exclusiveness over histories needs no disconnect, and no reuse options or no sendto from unbound sockets (each otherwise refuted). SO_REUSEPORT never lets sockets share (refuted)."
  },
  {
   "property": "C63",
   "status": "partial",
   "theorems": [
    "pcb_udp_connect",
    "pcb_connection_unique_partial",
    "pcb_connection_unique_refuted"
   ],
   "note": "Unique without reuse options, and always for TCP; with SO_REUSEADDR two unbound UDP sockets can get one connection (refuted)."
  },
  {
   "property": "C64",
   "status": "partial",
   "theorems": [
    "sack_scoreboard_sound",
    "sack_ack_keeps_missing",
    "sack_ack_exact",
    "sack_reported_stays_reported_refuted"
   ],
   "note": "When the last hole goes while reported data lies above snd_una, snd_fack is forgotten and reported bytes can become missing again (refuted); the rest is proved."
  },
  {
   "property": "C65",
   "status": "proved",
   "theorems": [
    "sack_retransmits_first_gap",
    "sack_resent_remembered",
    "sack_resent_count",
    "sack_adjust_skips_reported"
   ],
   "note": "Congestion window and recovery point are arguments."
  },
  {
   "property": "C66",
   "status": "proved",
   "theorems": [
    "sack_report_sound",
    "sack_report_newest_first",
    "sack_option_fits"
   ],
   "note": "Positions within a 2^30 window of the next byte expected, the largest window TCP can offer."
  },
  {
   "property": "C67",
   "status": "proved",
   "theorems": [
    "options_parse",
    "options_ws_bounded",
    "options_written_fit",
    "options_round_trip"
   ],
   "note": "TCP_SIGNATURE is not compiled in: a signature option is skipped."
  },
  {
   "property": "C68",
   "status": "proved",
   "theorems": [
    "tcp_outside_window_delivers_nothing",
    "tcp_beyond_window_only_acks",
    "tcp_blind_close_refuted"
   ],
   "note": "ofp_tcp_output is a parameter constrained by output_ok. The exception for closed sockets is real: tcp_blind_close_refuted."
  },
  {
   "property": "C69",
   "status": "proved",
   "theorems": [
    "tcp_reset_accepted_iff",
    "tcp_closed_only_if",
    "tcp_reset_sent_only_if"
   ],
   "note": "ofp_tcp_output is a parameter constrained by output_ok."
  },
  {
   "property": "C70",
   "status": "partial",
   "theorems": [
    "tcp_session_stream_partial",
    "tcp_nothing_after_eof",
    "tcp_fin_beyond_window_refuted",
    "tcp_fin_on_duplicate_ack_refuted",
    "tcp_second_fin_refuted"
   ],
   "note": "Holds for peers whose FIN lies within the window; a FIN cut off by the window is honoured although data before it is missing (refuted). Urgent data is inline."
  },
  {
   "property": "C71",
   "status": "proved",
   "theorems": [
    "tcp_state_and_ack"
   ],
   "note": "States from SYN_RECEIVED to FIN_WAIT_2."
  },
  {
   "property": "C72",
   "status": "proved",
   "theorems": [
    "tcp_stale_timestamp_ignored",
    "tcp_ts_recent_monotone"
   ],
   "note": ""
  },
  {
   "property": "C73",
   "status": "partial",
   "theorems": [
    "tcp_state_and_ack",
    "tcp_input_total",
    "tcp_send_window_refuted"
   ],
   "note": "The send window can wrap below zero to almost 2^64 (refuted). Totality assumes, in ESTABLISHED, that no more than the send buffer is outstanding."
  },
  {
   "property": "C74",
   "status": "partial",
   "theorems": [
    "tcp_syn_sent_unacceptable",
    "tcp_syn_sent_opens",
    "tcp_simultaneous_open",
    "tcp_syn_options_before_check_refuted"
   ],
   "note": "Everything but: the options of a SYN with an unacceptable ACK are taken over all the same (refuted)."
  },
  {
   "property": "C75",
   "status": "partial",
   "theorems": [
    "syn_cache_accounted",
    "syn_cache_one_entry",
    "syn_answered",
    "syn_repeated",
    "syn_cache_isolated",
    "newest_thirty",
    "overlapping_duplicates_refuted",
    "vrf_ignored_refuted",
    "ipv4_compatible_refuted"
   ],
   "note": "One record per connection and isolation hold for calls that do not overlap and endpoints that are not IPv4-compatible IPv6 addresses; both exceptions are real (refuted). The VRF is not part of a connection's identity (refuted)."
  },
  {
   "property": "C76",
   "status": "proved",
   "theorems": [
    "ack_completes",
    "ack_unknown",
    "rst_decides",
    "unreach_harmless",
    "connections_were_invited",
    "synack_only_for_syn",
    "bad_ack_ends_handshake_refuted",
    "iss_predictable_refuted"
   ],
   "note": "A single bad ACK forgets the half-open connection and the initial sequence number is the constant 31415 (refuted theorems record both)."
  },
  {
   "property": "C77",
   "status": "partial",
   "theorems": [
    "cookie_honoured",
    "zero_secret_refuted",
    "half_secret_zero_refuted",
    "cookies_stop_refuted",
    "cookie_scale_lost_refuted",
    "cookie_replay_refuted",
    "cookie_ancient_refuted",
    "cookie_small_mss_refuted"
   ],
   "note": "Without a timestamp in the ACK the announced scale and SACK are lost; after 248 days no cookie is honoured; unforgeability fails with the initial zero secrets. The digest is a parameter."
  },
  {
   "property": "C78",
   "status": "partial",
   "theorems": [
    "life_every_call_completes",
    "life_one_owner",
    "life_in_range",
    "life_fresh_descriptor",
    "life_no_stray_pcb",
    "life_close_releases",
    "life_tcp_end_releases",
    "life_lost_forever_refuted"
   ],
   "note": "Proved for applications that use open descriptors only and listen() only on sockets from socket() whose own connection has not ended (C80 shows what happens otherwise); the owner 'lost' exists: it is the leak of a failed accept (refuted). Stream sockets; socket events and accept filters are not modelled."
  },
  {
   "property": "C79",
   "status": "proved",
   "theorems": [
    "life_completed_total",
    "life_accept_fifo",
    "life_counters",
    "life_backlog_bound",
    "life_pending_has_listener",
    "life_readable_iff_accept"
   ],
   "note": ""
  },
  {
   "property": "C80",
   "status": "partial",
   "theorems": [
    "life_lost_forever_refuted",
    "life_table_exhausted_refuted",
    "life_listen_on_accepted_refuted",
    "life_listen_on_disconnected_refuted",
    "life_stale_descriptor_refuted",
    "life_readable_but_error_refuted"
   ],
   "note": "The property is false of the code: each clause has a theorem that refutes it, for every table size where that makes sense."
  },
  {
   "property": "C81",
   "status": "partial",
   "theorems": [
    "tcp_output_content",
    "tcp_output_position_unique",
    "tcp_output_content_uncalm_refuted"
   ],
   "note": "Synchronized connections (after the handshake); forced sends into a closed window must be probes, which tcp_output_content_uncalm_refuted shows to be needed. Segmentation offload, ECN and TCP-MD5 are not modelled."
  },
  {
   "property": "C82",
   "status": "proved",
   "theorems": [
    "tcp_output_window"
   ],
   "note": "Under the conditions of C81."
  },
  {
   "property": "C83",
   "status": "proved",
   "theorems": [
    "tcp_output_returns",
    "tcp_output_returns_refuted"
   ],
   "note": "Without the condition on failures the call loops for ever: refuted."
  },
  {
   "property": "C84",
   "status": "proved",
   "theorems": [
    "tcp_output_touches",
    "tcp_output_discharges_input"
   ],
   "note": ""
  },
  {
   "property": "C85",
   "status": "proved",
   "theorems": [
    "tcp_output_offers",
    "tcp_output_edge_refuted"
   ],
   "note": "That the edge on the wire never moves left at all is refuted."
  },
  {
   "property": "C86",
   "status": "partial",
   "theorems": [
    "tcp_output_timer_partial",
    "tcp_output_no_timer_refuted",
    "tcp_output_no_timer_without_memory_refuted",
    "tcp_output_ack_forgotten_refuted"
   ],
   "note": "False in two cases: a bare acknowledgement sent while the window is closed, and an allocation failure."
  },
  {
   "property": "C87",
   "status": "proved",
   "theorems": [
    "tcp_output_nodelay_sends_all"
   ],
   "note": ""
  },
  {
   "property": "C88",
   "status": "partial",
   "theorems": [
    "tcp_end_to_end_partial"
   ],
   "note": "One direction of a connection after the handshake; segments within half the sequence space; a FIN cut off by the receive window excluded (refuted in C70)."
  },
  {
   "property": "C89",
   "status": "proved",
   "theorems": [
    "md5_digest",
    "md5_cut_free",
    "md5_sixteen",
    "md5_huge_piece_refuted"
   ],
   "note": "Little-endian build. The bound on a single piece is needed: md5_huge_piece_refuted."
  },
  {
   "property": "C90",
   "status": "partial",
   "theorems": [
    "isn_value",
    "isn_advances",
    "isn_keeps_pace",
    "isn_message_unique",
    "isn_secret_refuted",
    "isn_tick_zero_refuted",
    "isn_idle_refuted",
    "isn_repeats_refuted"
   ],
   "note": "No reseeding within the period considered (it is off by default). Unpredictability, and advance over longer idle periods, are refuted."
  },
  {
   "property": "C91",
   "status": "proved",
   "theorems": [
    "rto_bounds",
    "rto_tracks",
    "rto_after_sample"
   ],
   "note": "Round trips up to 72 minutes (57 when the persist timer is used); slop up to 65535 ticks."
  },
  {
   "property": "C92",
   "status": "partial",
   "theorems": [
    "rexmt_gives_up",
    "rexmt_drop_only",
    "rexmt_not_before",
    "rexmt_grows",
    "persist_drop_only",
    "rexmt_r2_refuted",
    "rexmt_grows_refuted"
   ],
   "note": "100 s of RFC 1122 and growth after the third expiry are refuted; proved with 79 s and up to the third."
  },
  {
   "property": "C93",
   "status": "partial",
   "theorems": [
    "keepalive_drop_only",
    "keepalive_notices",
    "keepalive_idle_refuted"
   ],
   "note": "Tick counter below 2^31; the first probe comes after 60 s whatever TCP_KEEPIDLE is."
  },
  {
   "property": "C94",
   "status": "proved",
   "theorems": [
    "tw_ends_only",
    "tw_ends_soon",
    "tw_rst_ignored",
    "tw_msl_change_refuted"
   ],
   "note": "MSL constant (needed: tw_msl_change_refuted), tick counter below 2^31."
  },
  {
   "property": "C95",
   "status": "partial",
   "theorems": [
    "tw_segment",
    "tw_sends_only",
    "tw_window",
    "tw_ack_war_refuted",
    "tw_synack_refuted"
   ],
   "note": "Silence between two ends in TIME_WAIT and SYN-only are refuted."
  },
  {
   "property": "C96",
   "status": "proved",
   "theorems": [
    "tw_resources",
    "tw_frees"
   ],
   "note": "At least one entry in the table; everything under the tcbinfo lock."
  },
  {
   "property": "C97",
   "status": "proved",
   "theorems": [
    "burst_exactly_once",
    "burst_pending",
    "burst_no_drop",
    "burst_term",
    "burst_zero_refuted"
   ],
   "note": "A burst size of at least 1 is needed (burst_zero_refuted)."
  },
  {
   "property": "C98",
   "status": "proved",
   "theorems": [
    "ifc_exact",
    "ifc_down_leaves_nothing",
    "ifc_refused",
    "ifc_del_when_full_refuted",
    "ifc_down_when_full_refuted",
    "ifc_refused_add_refuted",
    "ifc_same_subnet_refuted",
    "ifc_masklen32_refuted",
    "ifc_up_secondary_refuted",
    "ifc_default_route_lost_refuted",
    "ifc_vlan_exhausted_refuted",
    "ifc_add_other_vrf_refuted",
    "ifc_down_shift_refuted"
   ],
   "note": "For the calls the statement allows; the refuted theorems show that each restriction is needed. The machine's 32-bit shift by 32 must leave the value (undefined in C)."
  },
  {
   "property": "C99",
   "status": "partial",
   "theorems": [
    "ifc_elem_get_partial",
    "ifc_elem_get_refuted"
   ],
   "note": "Only the primary address of an interface is found, and not when it was added to an interface without addresses."
  }
 ]
}