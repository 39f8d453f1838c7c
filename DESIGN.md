# Formal model of OpenFastPath/ofp in Rocq (Coq 8.16.1)

## 1. Method

* `/repo` is read as text; nothing is compiled or run.  Every Gallina definition of a `*Model.v` file carries a
  comment `src/file.c:first-last` naming the C it models, and says what was simplified.
* Layout, per subsystem `X`:
  * `XModel.v`  executable model (no proofs),
  * `XSpec.v`   the small independent specification (what the English property says, no model helpers),
  * `XProof.v`  lemmas,
  * `XProps.v`  the property theorems only: `Theorem ... . Proof. exact lemma. Qed.`, `Print Assumptions`, and
    an `Example` showing a concrete non-trivial case meeting the hypotheses.
* Machine integers are `Z` with explicit wrap (`u8 u16 u32 u64 s32` in `Base.v`); wrap is written wherever the C
  type can wrap and the property depends on it.
* Undefined behaviour (out-of-range access, null dereference, over-long shift, use of uninitialised memory) is a
  distinct outcome of the model (`UB`), never silently totalised.
* Pointer structures that are recycled through pools (routing tries, MTRIE tables) are modelled with an explicit
  heap and free list, so that aliasing, leaks and use-after-free are visible.
* Threads: small-step interleaving semantics whose atomic steps are the lock-protected sections (or the single
  lock operations) of the code.
* If the faithful model violates the property, the theorem is `..._refuted` with a computed witness, and the part
  that does hold is proved as `..._partial` with the missing hypothesis named.

## 2. Trusted base

Coq's kernel (incl. `vm_compute` for the finite witnesses), and the reading of the C text.  No axioms are
declared.  The per-theorem `Print Assumptions` output is summarised in section 5.

## 3. Plan per property

| id | model | proof |
|----|-------|-------|
| C01-C03 | heap of radix nodes + LIFO free list, `ofp_rtl_insert6/remove6/search6` statement by statement | representation invariant (heap <-> binary tree, disjoint from free list), refinement to a finite map prefix -> next hop |
| C04-C05 | same with the FIFO free list and the IPv4 variants (`addr & mask` walks) | same |
| C06-C09 | heap of 65536/256-entry tables with header fields aliased on entry 0, tail-queue free list, rule table | adds: invariant "entry = best prefix of this level, child iff longer prefixes"; deletes: refuted by recycled table, partial for tables with prefixes <= 16 bits |
| C10 | several roots in one heap | frame property of the representation invariant |
| C11-C13 | word-by-word sums and the 3-step fold on 64-bit | arithmetic modulo 65535 |
| C14-C15 | segment loop of `ofp_cksum` (with fuel; non-termination is an outcome) | induction over segments; refuted when `off` is beyond the first segment |
| C16-C18 | wheel of 8192 slots, spin-lock sections as atomic steps | invariant "slot distance = remaining seconds", history invariant |
| C19-C23 | hash of chains of fragments, 16-bit header arithmetic | invariant over histories, permutation argument |
| C24-C26 | segment queue with 32-bit sequence arithmetic | unwrapped-offset invariant |
| C27 | macros | modular arithmetic |
| C28 | n threads x n spin locks | invariant on program counters |
| C29-C30 | 16-slot array | refinement to a finite map |
| C31-C33 | sets, per-set cache, free list, reference counts, packet lists | invariant + refinement |
| C34 | fragmentation loop | induction on the loop |
| C35-C36 | table lookup with bounds | case analysis |
| C37, C46 | heap of AVL nodes, parent pointers, ranks and balance factors, shared node pool; every function of the file | representation predicate heap <-> tree, purely functional insertion/deletion proved equal to the pointer code, rank invariant; refutations for the failed operations |
| C38-C39 | pool of timer records, ODP failures as inputs | counting invariant over histories; refutation by a history |
| C40-C42 | as C19-C23, with packet identities | counting invariants over histories |
| C43-C44 | as C24-C26, with the queue-entry zone | invariant "rcv_nxt is the first byte not received" over histories |
| C45 | bit array in bytes, `ofp_select` loop | bit arithmetic, induction on nfds |
| C47 | ring of packet slots with sb_put/sb_get, byte counters | refinement to a list of packets |
| C48-C50 | `ofp_soreceive_stream`, `ofp_soreceive_dgram`, `ofp_sosend_generic` loops; the network is a list of events consumed at each wait | induction over the loop against "bytes received + bytes left = bytes arrived" |
| C51 | sleeper array, threads as program counters over the lock-protected sections | invariant over all interleavings |
| C52-C57 | SP and SA records with their own link fields, both look-up lists, free lists, reference counts, "this thread holds the processing lock"; every API call a step | invariant relating the linked records to the client's view (installed objects, references held), preserved by every legal call; `step_ok` gives the answer of every call |
| C58-C60 | packet as its bytes; input decision, TTL step, ICMP error construction, reflection, option stripping and checksum, each load and store checked against the packet | checksum congruences (from C01, C02); explicit result of each stage; induction over the chain of nodes |
| C61-C63 | PCBs of one protocol, the connection hash, the port hash with its heads; bind, connect, sendto, disconnect, accept, drop and free as steps | invariant: the buckets hold exactly the bound PCBs; each call's exact effect; induction over histories |
| C64-C66 | the hole list with its hint and counters under the sweep over sorted blocks; retransmission from the hint; the receiver's block list; 32-bit sequence numbers throughout | simulation by holes at unbounded positions; invariant of the sweep (zipper); induction over histories |
| C67 | the option parser with bounds-checked reads and the option writer byte for byte | grammar of option areas as an inductive relation, shown deterministic; the parser is a fold over it; the writer emits closed prefixes; case analysis over the flags for lengths |
| C68 | all of `ofp_tcp_do_segment` in stages between its labels, over a control block record; output is a parameter that may change only what has been sent or announced | weakest-precondition lemmas per stage: what is left of the segment after trimming is its part in the window |
| C69 | the same | exact case analysis of the reset stage; postcondition of every stage on state and error |
| C70 | the same plus TCP reassembly (C24) | session relation with an invariant tying the control block to a reassembly history; FINs cut off by the window excluded |
| C71 | the same | per stage: state after is a function of state before, ACK and end of stream |
| C72 | the same | exact path of a stale segment; postcondition on `ts_recent` |
| C73 | the same | postcondition on `snd_una` and the send buffer; every stage returns |
| C74 | the same | exact paths of SYN_SENT |
| C75 | `ofp_tcp_syncache.c`: hash rows, counters, allocation, the calls split at the point where the bucket is unlocked | invariant over all interleavings for the counters; for whole calls a row transition relation gives distinctness and isolation; induction over the flood |
| C76 | the same with the dispatch of `ofp_tcp_input` for listening sockets | exact characterisation of the validation in modular distances; weighted count of entries against events |
| C77 | `syncookie_generate/lookup` bit by bit, the digest a parameter | bit-field lemmas; the secret of a parity survives 16 s of any interleaving |
| C78 | socket and PCB life cycle: one operation per critical section, any interleaving (`LifeModel`) | inductive invariant over sockets, PCBs, queues and calls under way; every operation preserves it and completes |
| C79 | the queues of a listening socket in the same model | per-step queue effect, induction over runs |
| C80 | the same | concrete runs; induction over the table size for exhaustion; induction over runs for the leak |
| C81 | `ofp_tcp_output` as passes of plan, send, bookkeeping over the control block of C68, the scoreboard of C64, the send buffer of C37 (`TcpOutModel`); histories in `TcpOutSpec` | invariant: snd_una, snd_nxt, snd_max, buffer and scoreboard stand for positions in what the user wrote; preserved by every event |
| C82 | the same | bounds carried through plan and send |
| C83 | the same | measure: bytes still to retransmit plus bytes still to send; concrete fixpoint for the refutation |
| C84 | the same, any state | frame lemmas by case analysis; discharges `output_ok` of C68-C74 |
| C85 | the same, any state | distances from rcv_nxt |
| C86 | the same | case analysis; concrete runs for the refutations |
| C87 | the same | induction over passes |
| C88 | `TcpOutNet`: both ends and the network | the receiver's history is a session of C70 for every way the stream may go on |
| C89 | `ofp_md5c.c` line by line, the 64 macro calls as a table, `memcpy` with bounds (`Md5Model`); RFC 1321 with T computed from the sine series (`Md5Spec`) | the table is the rule of the RFC (computed once), bit functions equal, then an invariant over updates |
| C90 | `ofp_tcp_new_isn` with every clock reading separate (`IsnModel`) on top of C89 | the counters stand for counters that do not wrap |
| C91 | `tcp_xmit_timer`, the timer arithmetic of `ofp_tcp_timer_rexmt` and `ofp_tcp_setpersist` over int with UB (`RtoModel`) | invariant over histories: srtt and rttvar bounded by multiples of the longest round trip |
| C92 | the same, with `ofp_tcp_timer_persist` | induction over the remaining expiries |
| C93 | `ofp_tcp_timer_keep`, the clamp of `ofp_tcp_timer_activate`, the idle test of `tcp_do_segment` | invariant over schedules: t_rcvtime lags by at most the granularity, the timer is due before the drop point plus an interval |
| C94 | `ofp_tcp_timewait.c` with the queue, the zone and the control blocks (`TwModel`); what is expected, as a fold over the history (`TwSpec`) | invariant: queue sorted by expiry, equal to the connections entered and not ended |
| C95 | the same | the reply of each step is the specified one |
| C96 | the same, with `tcp_usr_close`, `tcp_detach`, `ofp_sofree` on flags; double free is UB | the block is a function of (closed before, closed since, in TIME_WAIT) |
| C97 | `ofp_pkt_send_burst.c` on its array of handles (`BurstModel`) | invariant: the slots of each port hold the packets waiting |
| C98, C99 | `ofp_portconf.c` (address configuration), `add_route`/`del_route` (`IfcModel`); what the calls mean in `IfcSpec` (an abstract configuration) | refinement: the address arrays hold the abstract lists, the tables hold exactly the routes owned by an address or the user; every call of a history preserves it |
| C100, C101 | `ofp_in_mcast.c` socket and group layers (`McastModel`); memberships as lists of sources, counted, in `McastSpec` | refinement: every filter is settled and equal to the list; every count of a group is the sum of the contributions of the memberships modulo 2^16, preserved by `inm_merge` (`merge_ok`) |
| C102, C103 | `ofp_udp_input`, `udp_append` (`UdpModel`), what becomes of each packet as a list of effects | induction over the list of sockets; composed with the refinement of C100 for groups |
| C104 | the MAC table of `ofp_vxlan.c` at the level of single atomic operations (`VxModel`) | invariant over histories: every live entry holds an address learned for its key, and how long it was not checked; without collisions, equality with the last address learned |
| C105 | `ofp_gre.c`, encapsulation in `ofp_vxlan.c` over lists of bytes (`TunModel`) | composition of output, any change of outer headers, and input, for all lists |
| C106 | `ofp_in6_cksum.c` on top of the packet checksum of C14 (`NdModel`) | accumulated sum congruent to the weighted byte sum of the pseudo header and message, as for C15 |
| C107 | `ofp_nd6_ns_output`, `ofp_nd6_na_output`, the resolution branch of IPv6 output (`NdModel`) | the 68-byte sum over the doctored header equals the pseudo-header sum; fields by position |
| C108 | the same with `ofp_icmp6_input` | composition of the two outputs and inputs for all hosts |
| C109 | `ofp_icmp6_input` for types 135 and 136, with the memory behind the packet as a parameter | case analysis over all packets; the rest refuted |
| C110 | the loop of `icmp6_notify_error` over a byte list whose end is the end of accessible memory (`Ic6Model`) | fuel bound by 8-byte progress; induction on the chain for exactness |
| C111 | the two name functions of `ofp_util.c` with models of `sprintf %d`, `atoi`, `strncmp`, `strchr` on character lists (`NameModel`) | induction on digits: printing gives a canonical numeral, reading any numeral gives its value |
| C112 | `ofp_mac_to_link_local` byte by byte | bitwise identity for the u bit, injection |
| C113 | the UDP hash table with IPv4, IPv6-only and dual-stack sockets, insertion, rehash and both lookups (`Pcb6Model`) | invariant of all histories: every bound socket is in exactly the chain its hash names; the lookup scan by induction on the chain |
| C114 | `ofp_in6_pcbbind` with its conflict test, port choice over any order of candidates | the same invariant; case analysis of the conflict test |
| C115 | the two protocol tables and `ofp_pffindproto`, `ofp_socreate` up to the attach (`ProtoModel`) | case analysis on family, type and protocol |
| C116 | the index tables as built at start, both classifiers, and the value and next header each IPv6 handler returns | exhaustion of the 256 protocol numbers; case analysis of the handlers; the loop by its two possible iterations |
| C117 | table creation in `ofp_subr_hash.c`, the TCP, UDP and per-CPU TCP set-up, the two index macros (`PcbHashModel`) | induction on the doubling loop; masks as `Z.ones`, so an index is a remainder |
<!--ROWS-->

## 4. What is modelled and what is not

| subsystem | modelled (in /repo) | not modelled |
|---|---|---|
| TcpSeq | `include/ofpi_tcp_seq.h` comparison macros | |
| Cksum | `src/ofp_in_cksum.c` whole file, IPv4 header checks of `include/api/ofp_ip.h` | alignment faults; endianness other than little |
| Radix | `src/ofp_rt_lookup.c` whole file, the IPv6 half of `src/ofp_rt_mtrie_lookup.c` | locks (one call at a time), the show functions other than traversal |
| Mtrie | `src/ofp_rt_mtrie_lookup.c` (IPv4), the add/del paths of `src/ofp_route.c` | locks; reference pointers handed out by look-ups |
| Timer | `src/ofp_timer.c` (long wheel, short timers, cancel, expiry) | start-up, per-CPU queue choice, ODP internals (an oracle) |
| Reass | `src/ofp_reass.c` whole file | the ICMP error sent on expiry |
| TcpReass | `src/ofp_tcp_reass.c` whole file | statistics |
| Brlock | `include/ofpi_brlock.h` | weak memory orders |
| Epoll | `src/ofp_epoll.c`, `FD_*`, `ofp_select` of `src/ofp_syscalls.c` | the sleep inside select is in Sleep |
| Errno, Uma | `src/ofp_errno.c`, `src/ofp_uma.c` | the thread-local storage of errno |
| Arp | `src/ofp_arp.c` (build without libck) | `src/ofp_arp_ck.c`, the two show functions |
| Frag | `ofp_fragment_pkt` and `ip_optcopy` in `src/ofp_pkt_processing.c` | other output stages |
| Avl | `src/ofp_avl.c` whole file | per-tree locks (one call at a time) |
| Sock | `src/ofp_uipc_sockbuf.c` (append, drop, copy, flush, space), the receive and send loops of `src/ofp_uipc_socket.c` | control packets, records, TCP output (an oracle) |
| Sleep | `ofp_sbwait`, `ofp_wakeup`, `ofp_msleep`, `ofp_sbappendstream`, `ofp_select` of `src/ofp_uipc_socket.c` and `src/ofp_syscalls.c` | ODP time; fairness |
| Ipsec | `src/ofp_ipsec_spd.c`, `src/ofp_ipsec_sad.c`, control and look-up functions of `src/ofp_ipsec.c` and `include/ofpi_ipsec.h` | start-up, ODP (its answers are arguments), crypto parameters, packet transformation, concurrency between calls (one race shown) |
| Ip4 | `ofp_ipv4_processing` (`src/ofp_pkt_processing.c:302-461`), `src/ofp_icmp.c` (error, reflect, send, input) | packets in several segments, routes and hooks (arguments), source routing (absent in the code), statistics, slow path |
| Pcb | `src/ofp_in_pcb.c:260-323,411-662,720-916,1018-1094,1180-1682`, its callers `udp_connect`, `udp_output`, `udp_disconnect`, `tcp_connect`, `syncache_socket` | IPv6, TIME_WAIT, credentials, IP_BINDANY, high/low port ranges, locks (each call is one step), the interface and route tables (arguments) |
| Sack | `src/ofp_tcp_sack.c` (all but statistics), `src/ofp_tcp_output.c:236-277,1301-1302,1506-1533`, the calls in `src/ofp_tcp_input.c:2305-2314,2832` | congestion control (window and recovery point are arguments), `ofp_tcp_sack_partialack`, the global hole count (an argument: how many allocations may still succeed), options other than SACK |
| TcpOpt | `src/ofp_tcp_input.c:3132-3219`, `src/ofp_tcp_output.c:1423-1560` | `TCP_SIGNATURE` (compiled out of the parser; the writer's branch is modelled), statistics |
| TcpIn | `src/ofp_tcp_input.c:1325-3125` (`ofp_tcp_do_segment`, `tcp_dropwithreset`) | congestion window and RTT (no control flow depends on them), ECN, receive buffer auto-sizing, MSS updates, keepalive and other timers than retransmit/persist, SACK scoreboard (see Sack), passive mode; `ofp_tcp_output` is a parameter with `output_ok` (which C84 proves of the model of it); sbspace, memory and clock are inputs |
| Syn | `src/ofp_tcp_syncache.c`, `src/ofp_tcp_input.c:955-1241` | digest, random bytes, clock, allocator and output are inputs; retransmit timer (compiled out), flow labels, IP options, TTL/TOS; socket creation is one bit; TCP signatures never set |
| Life | `src/ofp_uipc_socket.c` (life cycle), `src/ofp_syscalls.c` (socket calls), `src/ofp_tcp_usrreq.c`, `src/ofp_tcp_subr.c:868-1034`, `src/ofp_tcp_timewait.c:163-417` | addresses, buffers, timers and wake-ups; SS_EVENT, accept filters; datagram sockets; PCB names are never reused (a stale pointer is an access to freed memory) |
| TcpOut | `src/ofp_tcp_output.c:152-1403` | TSO, ECN, TCP-MD5, RTT timing, the IP header, the congestion window after idle; timers other than TT_REXMT and TT_PERSIST; a pass ends in one of three ways (no packet, sent, refused), chosen by the environment |
| Md5 | `src/ofp_md5c.c` | big-endian Encode and Decode; zeroing of the local x |
| Isn | `src/ofp_tcp_subr.c:1628-1701` | the lock (calls are serial) |
| Rto | `tcp_xmit_timer`, `ofp_tcp_timer_rexmt` 459-534, `_persist` 390-407, `_keep` 296-327, `ofp_tcp_setpersist`, idle test of `tcp_do_segment` | what the handlers send; congestion variables; bad-retransmit recovery; keepalive in SYN states; user sysctls other than rexmit_min and slop |
| Tw | `src/ofp_tcp_timewait.c`, `ofp_tcp_slowtimo`, `tcp_usr_close`, `tcp_detach`, `ofp_soclose` from drop on, `ofp_sofree` | headers and transmission of the ACK, tcp_discardcb, per-core queues (OFP_RSS), linger |
| Burst | `src/ofp_pkt_send_burst.c` | `ofp_send_pkt_multi` (an arbitrary result), allocation failure, cache alignment |
| Interface configuration | `src/ofp_portconf.c` up_v4, add_ip_v4, del_ip_v4, down, address list, ifaddr list, VLAN interface allocation; `add_route`, `del_route` | tunnels, IPv6, Linux (SP) commands, ARP entries of routes; routing tables are partial maps (C02-C04 show it of the trees while their nodes last) |
| Multicast memberships | `src/ofp_in_mcast.c`: join, leave, block, unblock, set filter, get filter, close; `inm_merge`; `ims_get_mode` | IGMP messages, recorded sources of queries, allocation failures, options other than memberships |
| UDP input | `ofp_udp_usrreq.c`: `ofp_udp_input`, `udp_append` | hooks, VXLAN, tunnels (`u_tun_func`), control messages, checksum (C11), PCB look-up (C61), slow path |
| VXLAN, GRE | `ofp_vxlan.c`: MAC table, input, header; `ofp_gre.c`: input, output | ARP over VXLAN, queues, look-up of tunnels, routing of the outer packet; interleavings of two writers of the MAC table |
| IPv6 checksum, neighbor discovery | `ofp_in6_cksum.c`, `ofp_in6_getscope`, `ofp_nd6.c`, types 135 and 136 of `ofp_icmp6_input`, the MAC branch of IPv6 output | other ICMPv6 types, the route table behind `ofp_set_route6_params`/`ofp_add_mac6` (recorded as effects; C-numbers of the radix tree cover it), the SP build |
| ICMPv6 errors | `icmp6_notify_error` (the header walk and the notice), the port lookup of `ofp_udp6_ctlinput` | the mapping of type and code to `PRC_` commands, path-MTU update, flow label, TCP's handler |
| Interface names | `ofp_name_to_port_vlan`, `ofp_port_vlan_to_ifnet_name`, `ofp_mac_to_link_local` of `ofp_util.c` | the alternating static buffers (a result is overwritten by the second next call), NULL arguments, the other functions of the file |
| UDP sockets, IPv4 and IPv6 in one table | `ofp_in6_pcbbind`, `ofp_in6_pcbconnect`, disconnect, lookup (v6 and v4), `ofp_in6_pcbsetport`, detach; hash function arbitrary | IPv4-mapped addresses, IPv4 connect in this table (see `PcbModel`), TCP, the temporary connect of `udp6_output`, multicast, the interface-address check, allocation failure, the second-level list of the port hash |
| Protocol switch | tables, `ofp_ip_init`, `ofp_ip6_init`, the AH/ESP part of `ofp_ipsec_init_global`, `ofp_pffindproto`, `ofp_socreate` up to `pru_attach`, `ipv4_transport_classifier`, `ipv6_transport_classifier`, return values of `ofp_icmp6_input`, `ofp_udp6_input`, `ofp_tcp6_input` | what the handlers do (other models); the hooks; failure to allocate a socket |
| PCB hash tables | `ofp_hashinit_flags`, `ofp_tcp_hashinit`, the table part of `ofp_in_pcbinfo_init` and `ofp_tcp_rss_in_pcbinfo_init`, `INP_PCBHASH`, `INP_PCBPORTHASH` | `malloc` failure, `ofp_phashinit` (unused), the zones and locks made beside the tables |
<!--SUBS-->

Everywhere: ODP packets are byte lists (with segmentation only where the code looks at it), logging and statistics
are dropped, configuration compile-time switches are those of the default build unless said otherwise.

## 5. Assumptions

`Print Assumptions` under every property theorem prints `Closed under the global context`: no axiom, not even of the
standard library, is used.  `vcheck` lists seven names of `Coq.ssr.ssrunder` as library axioms because the module is
loaded; no theorem depends on them.  Oracles (hash functions, ODP timers, allocation failures, arrival of packets,
errors of lower layers) are universally quantified arguments of the theorems, not axioms.

## 6. Where the code does not do what the property says

Each has a theorem `..._refuted` with a computed witness.

* Radix: adding or looking up a /128 reads bit 128 of a 16-byte address; default route (length 0) is an undefined
  shift in the IPv4 radix build; one IPv6 table for all VRFs; `ofp_rtl_search_exact` finds routes that are not there.
* Mtrie: a deletion that empties a level-2/3 table leaves the pointer to it, so deleted or foreign routes are
  returned once the table is reused; a default route hides longer routes; a delete after a refused add
  dereferences NULL.
* Checksum: a range that does not start in the first segment sums the wrong bytes; ends inside a later segment are
  mis-capped; an empty segment loops for ever.
* Timer: more than 8192 s fires early; a short timer cancelled at expiry still runs; if the one-second timer cannot
  be re-armed the wheel stops for ever.
* IP reassembly: abandoned datagrams stay in the queue count (permanent refusal after 1025); unlock of a lock not
  held; malformed fragments lower the fragment count; uninitialised lifetime; unchecked length; 16-bit wrap.
* TCP reassembly: flush leaks the packets; link-layer padding is delivered as data.
* ARP: reverse order of waiting packets; packets of removed entries leak; flush recycles entries routes still use;
  add_route takes entry and reference in two sections.
* Fragmentation: zero-length option and tiny MTU loop for ever; header length below 5 copies a negative size.
* AVL: missed delete and refused insert corrupt ranks; span of empty tree and empty range at the end dereference
  NULL; tree record lost on allocation failure.
* epoll/select: descriptor -1 accepted; descriptor range not checked; long timeouts truncated.
* errno/uma: `ofp_strerror(INT_MIN)`; zone 32 off by one; allocation from a destroyed zone.
* Sockets: flush leaves the byte count; MSG_PEEK repeats the first packet and may loop; MSG_WAITALL with an error
  loses bytes; two readers duplicate or lose packets; the UDP length field is never validated on input (the check in
  `ofp_udp_input` is compiled out), so a datagram with a short or long `uh_ulen` is read out of bounds;
  MSG_OOB counts bytes that were dropped; an error after queueing returns -1.
* Sleep: a timeout wakes the latest sleeper on the channel, not the one that asked; select misses arrivals.
* IPsec: an ANY address range matches nothing; destroying a policy twice ties the look-up list into a loop; an SA
  bound to a BYPASS policy is applied, to a DISCARD policy leaves the processing lock held; ICMP errors are parsed at
  `ip + ip_hl` bytes; iterating from a destroyed policy yields freed records; a failing `odp_ipsec_sa_destroy` leaks the
  SA record and a failing disable makes it undestroyable; a policy destroyed while being created stays in force.
* IPv4/ICMP: header and total length unchecked when forwarding; NULL next hop dereferenced with redirects and IPsec; ICMP
  errors copy 2*header+16 bytes whatever the packet's length, use `ip_len` unconverted, keep the MF bit; ICMP minimum
  lengths are compared with the IP total length (short timestamp requests are written beyond their end).
* PCBs: VRFs ignored by bind and lookup; `INP_REUSEPORT` is never set, so SO_REUSEPORT never works; UDP disconnect sets the
  local address to ANY without a check; sendto from an unbound socket checks the route's address, then binds ANY; with
  SO_REUSEADDR an automatic port is checked against unconnected sockets only; `in_pcbladdr` always uses VRF 0.
* SACK: when the last hole goes, `snd_fack` is re-initialised from `snd_una`, so data reported above it is forgotten and may be
  retransmitted; `sack_newdata` is assigned only under `if (0 && ...)` (`ofp_tcp_input.c:2407`); the receiver reports
  `save_start..save_start+tlen` with a `tlen` reassembly may have shortened at the front, so it can under-report.
* TCP options: the comment before `ofp_tcp_addoptions` promises room for one SACK block beside timestamps and signature, but the
  alignment uses it up (`sack_room` is 0 there).
* TCP input: the FIN flag is read from the header, not from the trimmed flags, at `src/ofp_tcp_input.c:2808` and in reassembly: a FIN
  cut off by the window is honoured and the user sees end of stream with data missing (`tcp_fin_beyond_window_refuted`). A FIN that
  looks like a duplicate ACK is dropped (`tcp_fin_on_duplicate_ack_refuted`). `TCPS_HAVERCVDFIN` is only true in TIME_WAIT, so a second
  FIN advances `rcv_nxt` again (`tcp_second_fin_refuted`). `snd_wnd -= acked` can wrap (`tcp_send_window_refuted`). Data far outside the
  window ends a connection the user has closed (`tcp_blind_close_refuted`). SYN options are taken before the ACK is checked
  (`tcp_syn_options_before_check_refuted`).
* SYN cache: without cookies the ISS is the constant 31415 (`iss_predictable_refuted`); any bad ACK removes the entry before it is validated
  (`bad_ack_ends_handshake_refuted`); the entry is inserted after the bucket lock was released, so overlapping SYNs duplicate it
  (`overlapping_duplicates_refuted`); VRFs are not compared (`vrf_ignored_refuted`); an IPv6 lookup for ::a.b.c.d finds IPv4 entries
  (`ipv4_compatible_refuted`). Cookies: secrets start as zeros and are renewed one per reseed (`zero_secret_refuted`,
  `half_secret_zero_refuted`); expiry is tested against the last reseed, not against the age of the secret (`cookie_ancient_refuted`);
  `time_uptime` divides a negative int converted to unsigned long (`cookies_stop_refuted`); replay, scale and MSS: `cookie_*_refuted`.
* Socket life cycle: `ofp_accept` undoes nothing when `ofp_soaccept` fails, so a connection reset between the handshake and accept() leaks its socket
  and PCB for ever (`life_lost_forever_refuted`), and a peer can use up the whole table this way (`life_table_exhausted_refuted`);
  `ofp_sonewconn` does not initialise the queues of the new socket and listen() accepts such a socket once its connection has ended
  (`life_listen_on_accepted_refuted`); a listener made from a disconnected socket passes SS_ISDISCONNECTED on, so accept() always fails
  (`life_listen_on_disconnected_refuted`); descriptors are not checked at all (`life_stale_descriptor_refuted`).
* TCP output: with more than one segment to send, a call never returns while ip_output refuses (`tcp_output_returns_refuted`); a bare ACK with
  the window closed leaves no timer running, so the connection hangs if the window update is lost (`tcp_output_no_timer_refuted`), and so does an
  allocation failure (`tcp_output_no_timer_without_memory_refuted`), which also forgets a requested ACK (`tcp_output_ack_forgotten_refuted`); a refused
  segment with FIN is only half taken back (`tcp_output_back_out_refuted`); urgent data during SACK recovery with the window closed is
  sent under a wrong sequence number (`tcp_output_content_uncalm_refuted`); the right edge moves left by less than a scale unit (`tcp_output_edge_refuted`).
* Initial sequence numbers: the secret is the tick counter and zeros, so the numbers are predictable (`isn_secret_refuted`); a first connection in tick 0
  is reseeded, so a reopened connection may start behind (`isn_tick_zero_refuted`); after 34 quiet minutes the clock is ignored (`isn_idle_refuted`);
  numbers repeat (`isn_repeats_refuted`). A single MD5 update of 2^32-1 bytes reads past its input (`md5_huge_piece_refuted`).
* Timers: after a short round trip a silent peer is given up after 79.4 s, RFC 1122 asks for 100 (`rexmt_r2_refuted`); at the fourth expiry the
  interval shrinks because srtt is folded into rttvar with the wrong scale (`rexmt_grows_refuted`); TCP_KEEPIDLE is cut to 60 s (`keepalive_idle_refuted`).
* TIME_WAIT: the test `tlen == 0` (FreeBSD: `!= 0`) makes pure ACKs be acknowledged, so two ends in TIME_WAIT exchange ACKs without end
  (`tw_ack_war_refuted`); a SYN|ACK ends TIME_WAIT (`tw_synack_refuted`); after lowering net.inet.tcp.msl entries wait behind older ones (`tw_msl_change_refuted`).
* `pkt_tx_burst_size` = 0 is accepted and the first packet is stored past the table (`burst_zero_refuted`).
* With eight addresses on an interface none can be deleted, and `del_ip` and `down` remove the routes but leave the addresses (`ifc_del_when_full_refuted`, `ifc_down_when_full_refuted`); a refused ninth address removes the subnet route of another (`ifc_refused_add_refuted`).
* Two addresses in one subnet share a route that the first deletion removes (`ifc_same_subnet_refuted`); a mask of 32 bits overwrites the local route (`ifc_masklen32_refuted`); `up` with a secondary address duplicates it and loses the primary (`ifc_up_secondary_refuted`).
* Bringing up a VLAN interface without address, or in another VRF, deletes the default route (`ifc_default_route_lost_refuted`); no VLAN interface left: null pointer written (`ifc_vlan_exhausted_refuted`); `add_ip` into another VRF leaves routes behind (`ifc_add_other_vrf_refuted`); `down` shifts by 32 (`ifc_down_shift_refuted`).
* `ofp_ifaddr_elem_get` misses secondary addresses and addresses added after the last one was deleted (`ifc_elem_get_refuted`).
* Multicast: a blocked source on an EXCLUDE membership always passes (`mcast_blocked_passes_refuted`); setting an empty filter keeps the old sources (`mcast_set_empty_refuted`); replacing a filter counts old and new sources together (`mcast_set_replace_refuted`); exceeding the group's source limit runs a rollback over the wrong tree (`mcast_group_limit_refuted`). Error paths of join also leave without `IN_MULTI_UNLOCK`, and without freeing the new filter's sources (not modelled).
* Multicast groups: leaving the last source of an INCLUDE list, then the group, makes the group forget another socket (`mcast_group_mode_refuted`) or wraps its count (`mcast_group_include_count_refuted`); setting an empty EXCLUDE filter twice counts twice (`mcast_group_asm_refuted`); a source one socket wants is reported excluded (`mcast_source_mode_refuted`).
* UDP: the packet of a datagram to a closed port is lost to the pool (`udp_closed_port_refuted`): `ofp_udp_input` says PROCESSED after `ofp_icmp_error`, which makes its own packet. The length check counts the link header (`udp_header_refuted`). A socket without `SO_REUSEPORT` hides the listeners behind it (`udp_group_refuted`). The loop over group listeners does not look at the VRF (not modelled).
* VXLAN: `old_key` is not reset between entries, so a MAC whose home entry is taken is "stored" in the next free entry without its key and never found (`vxlan_collision_refuted`): its traffic is flooded for ever. Entries live two hours, not one (`vxlan_age_refuted`). The key is published before the address (`vxlan_race_reachable`).
* GRE: flags are tested without `odp_be_to_cpu_16`, so on little-endian machines keyed packets are decapsulated four bytes early (`gre_key_refuted`); on VLAN interfaces the source MAC is copied over the destination (`gre_vlan_refuted`).
* IPv6 neighbor discovery: any target is answered with the own MAC (`ns_for_foreign_target_answered_refuted`), so one OFP host captures every address of a link; the answer to duplicate address detection depends on a byte behind the packet (`nd_dad_reads_past_packet_refuted`); hop limit not checked (`nd_hop_limit_refuted`); the option's MAC is ignored (`na_option_mac_ignored_refuted`); for a destination behind a gateway the destination itself is solicited and an on-link host route to it installed (`nd_resolve_gateway_refuted`).
* IPv6 checksum: the second address word is subtracted as if it were an embedded scope although packets on the wire carry none (`in6_cksum_second_word_refuted`).
* ICMPv6 errors: the last extension header's length is not compared with the packet's, so `ofp_udp6_ctlinput` reads up to 2 KB behind it (`udp6_error_ports_refuted`).
* Interface names: numbers are not checked, so `fp8`, `fp9`, `fp10` are aliases of the loopback, VXLAN and GRE ports and `fpga` of `fp0` (`ifnet_name_alias_refuted`, `ifnet_name_nonsense_refuted`).
* UDP table: the test that keeps IPv6-only sockets out of the IPv4 wildcard lookup is inside `#ifdef _INET6`, which nothing defines, so such a socket receives (and hides) IPv4 datagrams (`udp4_stolen_by_v6only_refuted`); addresses are compared by their last 32 bits (`udp4_to_v6_address_refuted`); a refused second bind clears `INP_IPV4` (`udp6_failed_bind_effect_refuted`).
* IPv6 dispatch: `ofp_icmp6_input` returns `OFP_PKT_CONTINUE` "to SP" with `*nxt = OFP_IPPROTO_DONE` (257) where `OFP_IPPROTO_SP` was meant, so every neighbour advertisement and every ICMPv6 message of unknown type makes `ipv6_transport_classifier` read `ofp_ip6_protox[257]`, beyond its 256 elements, and call what it finds (`ip6_dispatch_overrun_refuted`).
* OFP_RSS: every CPU's pcbinfo points to the same two arrays (guarded by different locks), and the second mask is stored in `ipi_hashmask` instead of `ipi_porthashmask`, which stays 0 (`pcb_hash_rss_refuted`).
<!--FIND-->
