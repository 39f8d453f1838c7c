{"id": "C01", "title": "IPv6 lookup is longest-prefix match over the current routes", "statement": "After any sequence of IPv6 route additions and deletions, looking up a destination returns the next hop of the longest installed prefix that contains it, and no next hop exactly when no installed prefix contains it. Adding a prefix that is already installed changes nothing (the first next hop stays); deleting removes exactly that prefix.", "quantifier": "every history of add/delete calls with prefix length 0..128, every 128-bit destination, every pool size", "why_tests_cant": "the space of tables x histories x destinations is unbounded; a stale or mis-linked node shows only for particular histories", "anchors": ["src/ofp_rt_lookup.c:ofp_rtl_insert6", "src/ofp_rt_lookup.c:ofp_rtl_remove6", "src/ofp_rt_mtrie_lookup.c:ofp_rtl_insert6", "include/ofpi_rt_lookup.h:ofp_rtl_search6"]}
{"id": "C02", "title": "A failed IPv6 route add has no effect", "statement": "When the node pool is exhausted the IPv6 add reports failure and afterwards every lookup, every stored route and the number of free pool nodes are what they were before; it never reads outside the 16-byte address.", "quantifier": "every reachable table and pool state, every prefix", "why_tests_cant": "exhaustion can strike after any number of nodes of the new path were taken; tests would need every table shape at every fill level", "anchors": ["src/ofp_rt_lookup.c:ofp_rtl_insert6 (nomem)"]}
{"id": "C03", "title": "IPv6 route nodes are never leaked or shared", "statement": "At every moment each pool node is either free or part of the table, never both, the number of allocated nodes reported by ofp_print_rt_stat equals the number of table nodes, and deleting every route returns every node but the root to the pool.", "quantifier": "every history of add/delete, successful or failed", "why_tests_cant": "leaks and double frees depend on long histories", "anchors": ["src/ofp_rt_lookup.c:NODEALLOC6", "src/ofp_rt_lookup.c:NODEFREE6", "src/ofp_rt_lookup.c:ofp_print_rt_stat"]}
{"id": "C04", "title": "IPv4 lookup is longest-prefix match (radix build)", "statement": "In the non-MTRIE build, after any sequence of IPv4 route additions and deletions with prefix length 1..32, lookup returns the next hop of the longest installed prefix containing the destination; re-adding a prefix replaces its next hop.", "quantifier": "every history of add/delete calls, every 32-bit destination", "why_tests_cant": "unbounded histories and 2^32 destinations", "anchors": ["src/ofp_rt_lookup.c:ofp_rtl_insert", "src/ofp_rt_lookup.c:ofp_rtl_remove", "include/ofpi_rt_lookup.h:ofp_rtl_search"]}
{"id": "C05", "title": "A failed IPv4 add has no effect and no node is leaked (radix build)", "statement": "In the non-MTRIE build an IPv4 add that runs out of nodes reports failure and leaves routes and free nodes unchanged; nodes are always exactly partitioned between free list and the tables.", "quantifier": "every history over any number of VRF tables sharing the pool", "why_tests_cant": "needs every fill level and table shape", "anchors": ["src/ofp_rt_lookup.c:ofp_rtl_insert (nomem)", "src/ofp_rt_lookup.c:NODEALLOC", "src/ofp_rt_lookup.c:NODEFREE"]}
{"id": "C06", "title": "IPv4 lookup is longest-prefix match (MTRIE build, additions)", "statement": "In the default MTRIE build, after any sequence of route additions with prefix length 1..32 (new prefixes or replacements, in any order) that do not exhaust the tables, lookup returns the next hop of the longest installed prefix containing the destination.", "quantifier": "every list of additions in every order, every destination", "why_tests_cant": "2^32 destinations and unbounded histories", "anchors": ["src/ofp_rt_mtrie_lookup.c:ofp_rtl_insert", "src/ofp_rt_mtrie_lookup.c:ofp_rtl_search"]}
{"id": "C07", "title": "IPv4 lookup stays longest-prefix match under deletions (MTRIE build)", "statement": "In the MTRIE build lookup is longest-prefix match after any sequence of additions and deletions of prefixes of length 1..32.", "quantifier": "every history of additions and deletions, every destination", "why_tests_cant": "the code frees and recycles 256-entry tables; a wrong answer needs a recycled table", "anchors": ["src/ofp_rt_mtrie_lookup.c:ofp_rtl_remove", "src/ofp_rt_mtrie_lookup.c:ofp_rt_rule_find_prefix_match"]}
{"id": "C08", "title": "A default route never hides a more specific route (MTRIE build)", "statement": "In the MTRIE build, adding 0.0.0.0/0 makes it the answer for destinations with no other route and does not change the answer for any destination that already had one.", "quantifier": "every table, every destination", "why_tests_cant": "needs every earlier table content", "anchors": ["src/ofp_rt_mtrie_lookup.c:ofp_rtl_insert", "src/ofp_route.c:add_route"]}
{"id": "C09", "title": "Deleting a route never dereferences a missing table (MTRIE build)", "statement": "In the MTRIE build no sequence of route additions (including ones that failed for lack of tables) and deletions makes the library dereference a null table pointer.", "quantifier": "every history at every pool size", "why_tests_cant": "needs exhaustion at a specific shape followed by a deletion", "anchors": ["src/ofp_rt_mtrie_lookup.c:ofp_rtl_remove", "src/ofp_route.c:add_route"]}
{"id": "C10", "title": "VRF isolation", "statement": "Adding or deleting a route in one VRF never changes the result of any lookup in a different VRF, although all VRFs share one node pool.", "quantifier": "every pair of VRFs, every history, every destination", "why_tests_cant": "cross-talk comes from aliasing of pool nodes in particular histories", "anchors": ["src/ofp_route.c:add_route", "src/ofp_route.c:del_route", "src/ofp_rt_lookup.c:ofp_rtl_root_init"]}
{"id": "C11", "title": "Buffer checksum is the Internet checksum", "statement": "ofp_cksum_buffer(addr,len) equals the RFC 1071 checksum of the len bytes (padded with one zero byte when odd), in network byte order, whatever the bytes, the length up to 256 KiB and the alignment of addr; it reads no byte outside the buffer.", "quantifier": "all byte strings of length 0..262143, all address alignments", "why_tests_cant": "256^n inputs; carry loss occurs only on rare sums", "anchors": ["src/ofp_in_cksum.c:ofp_cksum_buffer", "src/ofp_in_cksum.c:ofp_cksum_fold"]}
{"id": "C12", "title": "A packet carrying the computed checksum verifies", "statement": "If the checksum computed over data with a zero 16-bit field (at even offset) is stored in that field, recomputing the checksum over the whole data gives 0; and changing any single 16-bit word to a value not congruent modulo 65535 makes verification fail.", "quantifier": "all data, all even field positions, all single-word corruptions", "why_tests_cant": "all inputs", "anchors": ["src/ofp_in_cksum.c:ofp_cksum_buffer", "src/ofp_in_cksum.c:ofp_cksum_iph"]}
{"id": "C13", "title": "IP header checksum is the Internet checksum of the header", "statement": "ofp_cksum_iph(addr, hl) equals the RFC 1071 checksum of the first 4*hl bytes, for every legal header length 5..15 and both 2-byte alignments.", "quantifier": "all header bytes, hl in 5..15, both alignments", "why_tests_cant": "2^480 headers", "anchors": ["src/ofp_in_cksum.c:ofp_cksum_iph"]}
{"id": "C14", "title": "Packet checksum does not depend on segmentation", "statement": "ofp_cksum(pkt, off, len) equals the RFC 1071 checksum of bytes off..off+len-1 of the packet, however the packet data is split in segments, and always terminates.", "quantifier": "all packets, all segmentations (odd and zero length segments included), all off/len inside the packet", "why_tests_cant": "all ways of splitting a packet", "anchors": ["src/ofp_in_cksum.c:ofp_cksum"]}
{"id": "C15", "title": "UDP/TCP checksum covers the pseudo header", "statement": "ofp_in4_cksum(pkt) equals the RFC 1071 checksum of pseudo header (source, destination, protocol, payload length) followed by the payload; a payload byte string whose checksum field was filled this way verifies to 0 at the receiver.", "quantifier": "all IPv4 packets with header length 5..15 contained in the first segment", "why_tests_cant": "all packets", "anchors": ["src/ofp_in_cksum.c:ofp_in4_cksum"]}
{"id": "C16", "title": "A long timer fires after the requested number of seconds", "statement": "A timer started with ofp_timer_start for s whole seconds (s at least OFP_TIMER_MAX_US) runs its callback on the s-th following one-second tick: not earlier, not later, whatever other timers are started, cancelled or fire meanwhile.", "quantifier": "every start time, every s, every interleaving with other timer operations", "why_tests_cant": "firing slots collide only after thousands of seconds", "anchors": ["src/ofp_timer.c:ofp_timer_start_cpu_id", "src/ofp_timer.c:one_sec"]}
{"id": "C17", "title": "A cancelled long timer never fires; an uncancelled one fires exactly once", "statement": "If ofp_timer_cancel returns 0 for a long timer its callback is never run afterwards and had not run before; if it is never cancelled the callback runs exactly once; a handle that already fired or was cancelled yields -1 and changes nothing.", "quantifier": "every interleaving of start, cancel and tick steps (tick split at its lock boundaries) (histories with at most 2^50 long timer starts, the width of the handle counter)", "why_tests_cant": "races between cancel and expiry depend on the schedule", "anchors": ["src/ofp_timer.c:ofp_timer_cancel", "src/ofp_timer.c:one_sec"]}
{"id": "C18", "title": "Timer handles are unambiguous", "statement": "Two long timers that are pending at the same time have different handles, and a long timer handle is never confused with a short timer handle.", "quantifier": "every history of fewer than 2^50 starts (fewer than 2^50-1 long starts between the two, the width of the handle counter)", "why_tests_cant": "needs unbounded histories", "anchors": ["src/ofp_timer.c:ofp_timer_start_cpu_id"]}
{"id": "C19", "title": "IP reassembly delivers only received bytes at their offsets", "statement": "Every byte of a datagram delivered by ofp_ip_reass was received in some fragment of the same datagram (source, destination, id, protocol) at exactly that offset; the delivered payload has no gap and its length is the end of the fragment without the more-fragments flag.", "quantifier": "every arrival order, duplication, overlap and interleaving of fragments of any datagrams and timeouts", "why_tests_cant": "unbounded fragment sequences and overlaps", "anchors": ["src/ofp_reass.c:ofp_ip_reass"]}
{"id": "C20", "title": "Non-overlapping fragments are reassembled in any order", "statement": "If the fragments of one datagram (at least two, at most 17, disjoint, covering the payload) arrive once each in any order with no timeout, then the last arrival returns exactly the original payload, with a valid header checksum, and the queue is empty again.", "quantifier": "every split in fragments and every permutation, any other datagrams being reassembled at the same time", "why_tests_cant": "factorially many orders", "anchors": ["src/ofp_reass.c:ofp_ip_reass"]}
{"id": "C21", "title": "Fragments of different datagrams are never mixed", "statement": "A fragment changes only the reassembly queue of its own (source, destination, id, protocol); all other queues keep their fragments.", "quantifier": "every state and fragment, including hash collisions", "why_tests_cant": "hash collisions of arbitrary keys", "anchors": ["src/ofp_reass.c:ofp_ip_reass"]}
{"id": "C22", "title": "The reassembly queue limit counts live queues", "statement": "The counter that makes ofp_ip_reass refuse new fragments equals the number of datagrams being reassembled, so that after all incomplete datagrams have timed out new fragments are accepted again.", "quantifier": "every history of fragments and timeouts", "why_tests_cant": "only shows after more than a thousand incomplete datagrams", "anchors": ["src/ofp_reass.c:ip_freef", "src/ofp_reass.c:slow_tmo"]}
{"id": "C23", "title": "Reassembly lock discipline", "statement": "ofp_ip_reass releases its lock exactly when it acquired it, on every path.", "quantifier": "every path", "why_tests_cant": "the early exit path is taken only at the queue limit", "anchors": ["src/ofp_reass.c:ofp_ip_reass"]}
{"id": "C24", "title": "TCP reassembly delivers the sender's byte stream", "statement": "If all received segments carry bytes of one sender stream at their sequence numbers, then the bytes handed to the socket are, in order and without gap or repetition, exactly the stream bytes from the initial to the current rcv_nxt, for any order, duplication, overlap and re-segmentation, across sequence number wrap-around.", "quantifier": "every sequence of segments inside the 2^31 window, every stream, every initial sequence number", "why_tests_cant": "unbounded sequences, wrap-around", "anchors": ["src/ofp_tcp_reass.c:ofp_tcp_reass"]}
{"id": "C25", "title": "TCP reassembly queue is sorted, disjoint, counted and bounded", "statement": "After any sequence of segments the queue holds disjoint non-decreasing ranges beyond rcv_nxt, the segment count equals the number of queued segments and never exceeds the limit derived from the receive buffer by more than one; every packet given to it is either queued, delivered or freed exactly once.", "quantifier": "every sequence of segments, allocation failures included", "why_tests_cant": "unbounded sequences", "anchors": ["src/ofp_tcp_reass.c:ofp_tcp_reass"]}
{"id": "C26", "title": "Flushing the TCP reassembly queue frees its packets", "statement": "ofp_tcp_reass_flush leaves an empty queue with count 0 and releases every queued packet.", "quantifier": "every queue state", "why_tests_cant": "leaks are invisible to functional tests", "anchors": ["src/ofp_tcp_reass.c:ofp_tcp_reass_flush"]}
{"id": "C27", "title": "TCP sequence comparison is an order within half the space", "statement": "For sequence numbers less than 2^31 apart SEQ_LT/LEQ/GT/GEQ agree with the order of the unwrapped positions, are invariant under adding a common offset, and exactly one of <,=,> holds unless the distance is exactly 2^31.", "quantifier": "all pairs of 32-bit numbers", "why_tests_cant": "2^64 pairs", "anchors": ["include/ofpi_tcp_seq.h"]}
{"id": "C28", "title": "Big-reader lock excludes writers", "statement": "Under every schedule, while a thread holds the brlock for writing no other thread holds it for reading or writing, readers do not exclude one another, and if every holder eventually releases no reachable state is a deadlock.", "quantifier": "every number of threads, every interleaving of lock/unlock micro-steps", "why_tests_cant": "interleavings", "anchors": ["include/ofpi_brlock.h"]}
{"id": "C29", "title": "epoll set is a bounded map", "statement": "ofp_epoll_ctl ADD/MOD/DEL behave as insert/replace/delete on a map from descriptor to event of at most 16 entries: ADD of a present fd fails EEXIST, MOD/DEL of an absent fd fails ENOENT, ADD to a full set fails ENOSPC, failures change nothing and success changes only that fd.", "quantifier": "every history of calls", "why_tests_cant": "unbounded histories", "anchors": ["src/ofp_epoll.c:_ofp_epoll_ctl"]}
{"id": "C30", "title": "epoll_wait reports exactly registered ready descriptors", "statement": "A successful ofp_epoll_wait returns at most maxevents events, each the registered event of a distinct registered descriptor waiting for input and readable; it returns all of them when they number at most maxevents, and at least one when any is ready.", "quantifier": "every set, every readiness, every maxevents", "why_tests_cant": "all combinations", "anchors": ["src/ofp_epoll.c:_ofp_epoll_wait", "src/ofp_epoll.c:available_events"]}
{"id": "C31", "title": "ARP lookup returns the last MAC learned", "statement": "After any history of ARP inserts and removals, a lookup of (vrf, address) succeeds exactly when the entry exists and is complete, and returns the MAC most recently inserted for exactly that vrf and address, whatever the hash collisions and the per-set cache contain.", "quantifier": "every history, every hash function value", "why_tests_cant": "hash collisions and cache staleness", "anchors": ["src/ofp_arp.c:ofp_ipv4_lookup_mac", "src/ofp_arp.c:insert_new_entry", "src/ofp_arp.c:remove_entry"]}
{"id": "C32", "title": "ARP entries used by routes are not removed", "statement": "An ARP entry whose reference count is positive is never removed or recycled, so the entry index stored in a route keeps naming the gateway it was created for; the pool is exactly partitioned between free and used entries.", "quantifier": "every history of insert, remove, age, reference operations", "why_tests_cant": "ageing after arbitrary histories", "anchors": ["src/ofp_arp.c:ofp_arp_ipv4_remove_entry", "src/ofp_arp.c:ofp_arp_inc_ref_count", "src/ofp_arp.c:ofp_arp_age_cb"]}
{"id": "C33", "title": "Packets waiting for ARP are sent or freed exactly once", "statement": "Each packet saved while an address is unresolved is handed to output exactly once when the address resolves, in arrival order, or freed exactly once when it times out or the entry is removed.", "quantifier": "every history", "why_tests_cant": "leaks are invisible to functional tests", "anchors": ["src/ofp_arp.c:ofp_arp_save_ipv4_pkt", "src/ofp_arp.c:ofp_arp_ipv4_insert", "src/ofp_arp.c:ofp_arp_ipv4_remove_entry"]}
{"id": "C34", "title": "IPv4 fragmentation is exact", "statement": "When a datagram larger than the MTU is sent, the fragments' payloads at their offsets tile the original payload exactly, every fragment but the last has the more-fragments flag and a length multiple of 8, none exceeds the MTU, every header checksum is valid, and reassembling them in any order gives back the datagram.", "quantifier": "all payloads, header lengths, MTUs of at least 68", "why_tests_cant": "all sizes and MTUs", "anchors": ["src/ofp_pkt_processing.c:ofp_fragment_pkt"]}
{"id": "C35", "title": "Error strings are total", "statement": "ofp_strerror returns a string from the table or the empty string for every int, without reading outside the table.", "quantifier": "every int", "why_tests_cant": "boundary ints such as INT_MIN", "anchors": ["src/ofp_errno.c:ofp_strerror"]}
{"id": "C36", "title": "Memory zones", "statement": "Every zone handle returned by ofp_uma_pool_create designates its own pool for its whole life; alloc on a handle never created fails; no call with any zone number reads outside the pool table.", "quantifier": "every history, every int zone", "why_tests_cant": "boundary values", "anchors": ["src/ofp_uma.c"]}
{"id": "C37", "title": "AVL tree is an ordered set", "statement": "After any sequence of insertions and deletions the AVL tree finds exactly the keys inserted and not deleted, in order, by key and by index, and its height is logarithmic in its size.", "quantifier": "every history, every total preorder comparator", "why_tests_cant": "unbounded histories; rotations", "anchors": ["src/ofp_avl.c"]}
{"id": "C38", "title": "Timer resources are conserved", "statement": "Each timer buffer, timeout and ODP timer is at every moment either free or held by exactly one pending timer, start call in progress, running tick handler or the one-second timer; every failing start gives back what it allocated and every fired or cancelled timer gives back its resources exactly once.", "quantifier": "all interleavings of start, cancel, tick, callback, expiry and ODP failures", "why_tests_cant": "leaks and double frees depend on the interleaving and on which ODP call fails", "anchors": ["src/ofp_timer.c: one_sec, ofp_timer_start_cpu_id, ofp_timer_cancel, ofp_timer_handle"]}
{"id": "C39", "title": "Timer pool exhaustion is transient", "statement": "After the timer buffer pool has been exhausted and buffers have been given back, long timers continue to fire.", "quantifier": "all histories that exhaust the pool at some moment", "why_tests_cant": "needs the pool to be empty exactly when the tick handler restarts itself", "anchors": ["src/ofp_timer.c: one_sec"]}
{"id": "C40", "title": "Fragment limit per datagram counts stored fragments", "statement": "The fragment count used to limit a datagram to 16 stored fragments equals the number of fragments stored for it, so no datagram ever has more than 16 fragments queued.", "quantifier": "every history of fragments and timeouts", "why_tests_cant": "depends on every history of malformed, duplicate and overlapping fragments; a wrong count only shows after a particular history", "anchors": ["src/ofp_reass.c:ofp_ip_reass"]}
{"id": "C41", "title": "Incomplete datagrams live at least max(15, TTL) seconds", "statement": "A fragment queued for reassembly is kept until its datagram completes or at least max(15, TTL) seconds have passed, and is dropped after at most 255 further seconds.", "quantifier": "every history, every content of the packet headroom", "why_tests_cant": "depends on uninitialised memory contents and on the order of arrival", "anchors": ["src/ofp_reass.c:ofp_ip_reass", "src/ofp_reass.c:slow_tmo"]}
{"id": "C42", "title": "Reassembly conserves packets", "statement": "Every packet handed to ofp_ip_reass is at any time exactly one of: held in a queue, freed once, or returned once (the returned packet standing for the first fragment).", "quantifier": "every history of fragments, overlaps, failures and timeouts", "why_tests_cant": "leaks and double frees appear only on particular overlaps and limits", "anchors": ["src/ofp_reass.c:ofp_ip_reass", "src/ofp_reass.c:ip_freef", "src/ofp_reass.c:slow_tmo"]}
{"id": "C43", "title": "TCP reassembly is complete: rcv_nxt is the first missing byte", "statement": "On an established connection, after every accepted segment the acknowledged position rcv_nxt is the first stream position contained in no accepted segment; a segment is refused only when the queue is at its limit or no queue entry can be allocated, never when it is the next expected one, and refusing changes nothing.", "quantifier": "every history of segments inside the 2^31 window, every allocation failure pattern", "why_tests_cant": "the set of arrival orders, overlaps and failures is infinite", "anchors": ["src/ofp_tcp_reass.c:ofp_tcp_reass", "src/ofp_tcp_input.c:2784-2852"]}
{"id": "C44", "title": "TCP reassembly queue entries are conserved and never dangle", "statement": "The number of queue entries allocated minus those given back always equals the queue length, and when ofp_tcp_reass returns no queued entry is the one it kept on its own stack.", "quantifier": "every history of segments and allocation failures", "why_tests_cant": "needs all queue contents reachable when the allocation fails", "anchors": ["src/ofp_tcp_reass.c:ofp_tcp_reass"]}
{"id": "C45", "title": "Descriptor sets and select", "statement": "For descriptors in the socket range OFP_FD_SET/CLR/ISSET/ZERO implement a set of descriptors, each call affecting only its own descriptor; ofp_select leaves in the read set exactly the readable members below nfds, returns their number and sleeps only when nothing was readable and the timeout allows it.", "quantifier": "every set, every descriptor, every readiness, every timeout", "why_tests_cant": "all bit positions, sets and readiness functions", "anchors": ["src/ofp_syscalls.c:_ofp_select", "src/ofp_syscalls.c:OFP_FD_SET", "src/ofp_syscalls.c:OFP_FD_CLR", "src/ofp_syscalls.c:OFP_FD_ISSET"]}
{"id": "C46", "title": "AVL trees share the node pool without leak or interference", "statement": "For any history of creating and freeing trees, inserting and deleting keys, no call crashes or loops, a call on one tree never changes another, every insertion succeeds as long as fewer nodes than the pool holds are in use (one per key and one per tree), and freeing a tree hands every key to the free function once, in order, and gives its nodes back.", "quantifier": "every history over any number of trees, every pool size below 2^30, every comparator per tree", "why_tests_cant": "unbounded histories, aliasing between trees in one pool", "anchors": ["src/ofp_avl.c:avl_tree_new", "src/ofp_avl.c:avl_tree_free", "src/ofp_avl.c:avl_insert", "src/ofp_avl.c:avl_delete"]}
{"id": "C47", "title": "A socket buffer is a bounded queue of packets read as one byte stream", "statement": "For every sequence of appends, looks at the first packet, copies out, drops of bytes or records and queries on a socket buffer, the results are those of a queue of at most 63 packets: an append succeeds exactly while fewer than 63 packets are queued, the byte count is the number of bytes queued, dropping n bytes leaves exactly the rest of the stream, copying out [off, len) gives those bytes of the stream, and the space reported is the buffer size times the free slots.", "quantifier": "every sequence of calls, every packet size up to 64 KiB, every event callback", "why_tests_cant": "ring-buffer wrap-around and counters over unbounded histories", "anchors": ["src/ofp_uipc_sockbuf.c:ofp_sockbuf_put_last", "src/ofp_uipc_sockbuf.c:sbdrop_internal", "src/ofp_uipc_sockbuf.c:ofp_sockbuf_copy_out", "src/ofp_uipc_sockbuf.c:sbflush_internal", "include/ofpi_sockbuf.h:sbspace"]}
{"id": "C48", "title": "Receiving from a stream loses, repeats and reorders nothing", "statement": "For every buffer content and whatever arrives, closes or fails while the call has released the buffer lock, ofp_recv on a TCP socket returns bytes such that what it returned followed by what is still buffered equals what was buffered followed by the accepted arrivals in order; it never reads past an out-of-band mark, returns short only if the buffer ran dry, and with MSG_WAITALL only at end of stream, error or mark; an error return takes nothing off the stream; MSG_PEEK shows the stream without consuming it; several readers share the stream.", "quantifier": "every buffer content, request size, out-of-band mark, flag combination and every sequence of concurrent arrivals", "why_tests_cant": "concurrent arrivals in every unlocked window and unbounded packet sequences", "anchors": ["src/ofp_uipc_socket.c:ofp_soreceive_generic", "src/ofp_syscalls.c:ofp_recvfrom", "src/ofp_uipc_sockbuf.c:ofp_sblock"]}
{"id": "C49", "title": "Datagrams are received whole, once and in order", "statement": "For every history of datagram arrivals and receives on a UDP socket, each receive returns the oldest queued datagram's payload (cut to the caller's buffer, reported as truncated), each datagram is returned at most once, and datagrams are dropped only when 63 are already queued.", "quantifier": "every history of arrivals and receives, every datagram and buffer size", "why_tests_cant": "unbounded histories", "anchors": ["src/ofp_uipc_socket.c:ofp_soreceive_dgram", "src/ofp_uipc_sockbuf.c:ofp_sbappendaddr_locked"]}
{"id": "C50", "title": "The number of bytes ofp_send reports is what it queued", "statement": "For every buffer state, however acknowledgements free space during the call and whichever packet allocations fail, ofp_send on a TCP socket queues a prefix of the caller's bytes, in order, after everything queued before, returns exactly the length of that prefix, and returns an error only if nothing was queued; no byte is dropped for lack of a slot.", "quantifier": "every buffer content, message, sequence of acknowledgements, allocation failures and protocol errors during the call", "why_tests_cant": "interleavings of acknowledgements with the send loop, failure points", "anchors": ["src/ofp_uipc_socket.c:ofp_sosend_generic", "src/ofp_syscalls.c:ofp_sendto", "src/ofp_tcp_usrreq.c:tcp_usr_send", "src/ofp_syscalls.c:ofp_socket_sigevent"]}
{"id": "C51", "title": "No wake-up is lost", "statement": "A thread blocked in a receive is asleep only while the buffer is empty: whenever data has been appended, every reader that slept is woken, for any number of readers, writers, selects, other sleepers, stray wake-ups and timers; a wake-up reaches exactly the sleepers of its channel and the selects; a timeout ends the sleep of the thread that asked for it; ofp_select does not sleep while a descriptor is readable.", "quantifier": "every interleaving of any number of threads, every history of sleeps and wake-ups, any number of sleeper records", "why_tests_cant": "races between checking and sleeping", "anchors": ["src/ofp_uipc_socket.c:ofp_msleep", "src/ofp_uipc_socket.c:_ofp_wakeup", "src/ofp_uipc_socket.c:sleep_timeout", "src/ofp_uipc_sockbuf.c:ofp_sbwait", "src/ofp_uipc_sockbuf.c:ofp_sowakeup", "src/ofp_syscalls.c:_ofp_select"]}
{"id": "C52", "title": "The matching IPsec policy of best priority decides", "statement": "For every set of installed policies, an outbound packet is judged by the installed outbound policy of the same VRF whose selectors accept it that has the lowest priority number, the newest among equals: BYPASS lets it pass, DISCARD drops it, PROTECT hands it the SA bound to the policy or drops it when none is usable; without such a policy it passes. An inbound packet that did not come out of IPsec is dropped exactly when the policy that judges it is not BYPASS. A range whose first and last addresses are 0 accepts every address.", "quantifier": "every history of creations, destructions, flushes, binds and reference operations, every packet", "why_tests_cant": "priority orders and insertion orders are unbounded", "anchors": ["src/ofp_ipsec_spd.c:ofp_ipsec_sp_lookup", "src/ofp_ipsec_spd.c:add_sp_to_list", "include/ofpi_ipsec.h:ofp_ipsec_out_lookup", "include/ofpi_ipsec.h:ofp_ipsec_inbound_check"]}
{"id": "C53", "title": "An IPsec handle keeps its meaning while it is held", "statement": "A newly created SP or SA has a handle no installed object and no reference held by the client uses; creation fails only for unsupported parameters, a taken id (or inbound SPI), a refusal by ODP or a full table; while an object is installed or a reference to it is held, its parameters do not change and can be read back, with its status (active, disabled, destroyed).", "quantifier": "every history of calls, every table size", "why_tests_cant": "use after free across any history", "anchors": ["src/ofp_ipsec_spd.c:ofp_ipsec_sp_add", "src/ofp_ipsec_sad.c:ofp_ipsec_sa_create", "src/ofp_ipsec_spd.c:ofp_ipsec_sp_unref", "src/ofp_ipsec_sad.c:ofp_ipsec_sa_unref"]}
{"id": "C54", "title": "IPsec control calls return with a correct result", "statement": "Every control call and packet look-up made with valid handles returns, with a result that the installed objects explain: destroying a policy or SA succeeds and removes exactly it, a flush removes exactly the objects of its VRF, a bind succeeds exactly when directions and VRFs agree and an inbound SA was not bound before.", "quantifier": "every history of calls with valid handles", "why_tests_cant": "a corrupted list shows only as an endless loop much later", "anchors": ["src/ofp_ipsec.c:ofp_ipsec_sp_destroy", "src/ofp_ipsec.c:sp_flush", "src/ofp_ipsec.c:ofp_ipsec_sp_bind", "src/ofp_ipsec.c:sa_flush"]}
{"id": "C55", "title": "A decapsulated packet must fit its policy", "statement": "A packet that came out of an inbound SA is accepted exactly when the SA was bound to a policy, the packet (or, for an ICMP error, the quoted packet reversed) fits the selectors of that policy as they were at the time of the bind, and it arrived in the VRF of the SA.", "quantifier": "every history and every packet", "why_tests_cant": "every header value and every later change of the databases", "anchors": ["src/ofp_ipsec.c:ofp_ipsec_packet_process_inbound", "src/ofp_ipsec_spd.c:ofp_ipsec_selector_match"]}
{"id": "C56", "title": "An outbound look-up holds the processing lock only while it hands out an SA", "statement": "After an outbound look-up the processing lock is held by the thread exactly when the look-up returned an SA for the packet to be protected with; after the SA is used or released, and after every other call, it is not held, so the next control call can proceed.", "quantifier": "every history", "why_tests_cant": "a lock left held blocks an unrelated call later", "anchors": ["src/ofp_ipsec.c:ofp_ipsec_out_lookup_priv", "include/ofpi_ipsec.h:ofp_ipsec_output_cancel"]}
{"id": "C57", "title": "IPsec ids are unique and iteration is complete", "statement": "No two installed SPs, and no two installed SAs, have the same id, no two inbound SAs the same SPI; a search by id finds exactly the installed object with that id; first/next visits every installed SP exactly once, newest first, and leaves the references as they were; a destroyed SA's place can be used again.", "quantifier": "every history of calls", "why_tests_cant": "needs all histories", "anchors": ["src/ofp_ipsec_spd.c:ofp_ipsec_sp_find_by_id", "src/ofp_ipsec_spd.c:ofp_ipsec_sp_next", "src/ofp_ipsec_sad.c:ofp_ipsec_sa_find_by_id", "src/ofp_ipsec_sad.c:ofp_ipsec_sa_destroy_finish"]}
{"id": "C58", "title": "Forwarding decrements the TTL, keeps the packet and ends", "statement": "A received IPv4 packet is forwarded only if its version is 4, its header is well-formed with a correct checksum, its TTL is greater than 1 and it is for none of our addresses, groups or broadcast; it leaves with the TTL one lower, a correct header checksum, and every other byte unchanged, towards the next hop of its destination; otherwise, when only the TTL forbids it, a Time Exceeded is sent. So a packet crosses at most TTL-1 nodes, whatever their tables (forwarding loops end), and no packet makes the input path fail.", "quantifier": "every packet, every table and configuration, every chain of nodes", "why_tests_cant": "all checksums, both byte orders, unbounded chains", "anchors": ["src/ofp_pkt_processing.c:ofp_ipv4_processing", "src/ofp_cksum.c:ofp_cksum_iph"]}
{"id": "C59", "title": "ICMP errors are correct and never answer an error", "statement": "An ICMP error about a packet goes to its source, has correct IP and ICMP checksums and lengths, the given type and code (with MTU, gateway or pointer in the second word), and quotes the packet's header and the first 8 bytes of its data; none is sent about a fragment but the first or about an ICMP error, so errors never provoke errors.", "quantifier": "every packet, type, code, MTU and byte order", "why_tests_cant": "header options, byte orders and lengths multiply", "anchors": ["src/ofp_icmp.c:_ofp_icmp_error", "src/ofp_icmp.c:icmp_reflect", "src/ofp_icmp.c:icmp_send"]}
{"id": "C60", "title": "Ping works and only requests are answered", "statement": "An echo request of at least 8 bytes with a correct checksum is answered with an echo reply carrying the same code, identifier, sequence number and data, with correct checksums, to its source from the address it was sent to (or the address of the interface), without IP options; a message with a wrong checksum or shorter than 8 bytes is dropped; nothing but an echo or timestamp request is ever answered.", "quantifier": "every packet", "why_tests_cant": "all lengths, options and byte orders", "anchors": ["src/ofp_icmp.c:ofp_icmp_input", "src/ofp_icmp.c:icmp_echo", "src/ofp_icmp.c:icmp_reflect"]}
{"id": "C61", "title": "Incoming packets reach the right socket", "statement": "A UDP or TCP packet is given to the socket connected to exactly its source and destination address and port if there is one, else to an unconnected socket bound to its destination address and port, else to one bound to the port on any address, else to nobody; whatever sockets were opened, bound, connected, disconnected, accepted and closed before, in any order and however they collide in the hash tables. No such history makes a call touch a closed socket.", "quantifier": "every history of socket calls, every packet, every table size", "why_tests_cant": "unbounded histories, hash collisions", "anchors": ["src/ofp_in_pcb.c:in_pcblookup_hash_locked", "src/ofp_in_pcb.c:in_pcbinshash_internal", "src/ofp_in_pcb.c:ofp_in_pcbrehash_mbuf"]}
{"id": "C62", "title": "Bind is exclusive", "statement": "Binding an unbound socket to an address and port fails with EADDRNOTAVAIL exactly when the address is not ours, with EADDRINUSE exactly when the port is held on an overlapping address (with SO_REUSEADDR: on the same address by an unconnected socket), and otherwise succeeds unless memory is exhausted; without a port, a free one of the configured range is chosen and the call fails only if there is none; failures change nothing and other sockets are never touched. So two unconnected sockets never share an address and port.", "quantifier": "every history, address, port, option and random number", "why_tests_cant": "unbounded histories; the port search wraps around", "anchors": ["src/ofp_in_pcb.c:ofp_in_pcbbind_setup", "src/ofp_in_pcb.c:ofp_in_pcb_lport", "src/ofp_in_pcb.c:ofp_in_pcblookup_local"]}
{"id": "C63", "title": "One socket per connection", "statement": "connect() takes the peer's address and port, the outgoing interface's address when none is bound and a free port when none is bound; it fails with EADDRINUSE exactly when another socket has this connection already, with ENETUNREACH when there is no route, and changes nothing when it fails. At most one socket is connected between any two endpoints.", "quantifier": "every history, peer and route", "why_tests_cant": "unbounded histories", "anchors": ["src/ofp_in_pcb.c:ofp_in_pcbconnect_setup", "src/ofp_in_pcb.c:ofp_in_pcbconnect", "src/ofp_tcp_usrreq.c:tcp_connect", "src/ofp_tcp_syncache.c:syncache_socket"]}
{"id": "C64", "title": "The SACK scoreboard is sound", "statement": "Whatever acknowledgements arrive, with arbitrary SACK blocks, and whatever is sent, retransmitted or timed out: processing them never touches freed or missing memory; a byte between the acknowledged ones and the highest one reported that the sender does not hold missing was reported received by the peer; an acknowledgement removes a byte from the missing ones only if it covers it, and with memory for five holes the missing bytes afterwards are exactly those it says. Failed allocations only make the sender hold more bytes missing.", "quantifier": "every history of acknowledgements, blocks, sends, retransmissions, timeouts and failed allocations", "why_tests_cant": "unbounded histories, 32-bit wraparound, allocation failures", "anchors": ["src/ofp_tcp_sack.c:ofp_tcp_sack_doack", "src/ofp_tcp_sack.c:tcp_sackhole_insert", "src/ofp_tcp_sack.c:tcp_sackhole_remove"]}
{"id": "C65", "title": "SACK retransmission fills the first gap", "statement": "A SACK retransmission starts at the first missing byte not yet retransmitted, covers only such bytes, and respects the window, the segment size and the recovery point; when none is offered nothing below the recovery point is left to retransmit. Retransmitted bytes are not forgotten until a timeout and their count is exact. Moving snd_nxt forward after a timeout skips only bytes the peer has reported.", "quantifier": "every history and every retransmission opportunity", "why_tests_cant": "the hint into the hole list must survive every removal and split", "anchors": ["src/ofp_tcp_sack.c:ofp_tcp_sack_output", "src/ofp_tcp_sack.c:ofp_tcp_sack_adjust", "src/ofp_tcp_output.c:ofp_tcp_output"]}
{"id": "C66", "title": "The receiver's SACK report is truthful", "statement": "In every history of segments the blocks reported contain only bytes received beyond the next one expected, neither overlap nor touch, and are at most six; the first one contains the newest out-of-order segment; a byte reported stays reported until it is in order or the list is full; the option holds a prefix of the list that fits.", "quantifier": "every sequence of segments", "why_tests_cant": "unbounded histories, wraparound", "anchors": ["src/ofp_tcp_sack.c:ofp_tcp_update_sack_list", "src/ofp_tcp_sack.c:ofp_tcp_clean_sackreport", "src/ofp_tcp_output.c:ofp_tcp_addoptions"]}
{"id": "C67", "title": "TCP options are read and written faithfully", "statement": "Every option area, whatever its bytes, is read without leaving it and yields, per kind, the last well sized option; MSS, window scale and SACK-permitted count only on SYN segments, SACK blocks only on others, and a window scale is at most 14. Whatever options are requested, the area written is at most 40 bytes and a multiple of four, and reading it back gives the requested options, with as many SACK blocks as fit from the front.", "quantifier": "every byte string received, every set of options sent", "why_tests_cant": "adversarial option bytes; 32 combinations of options with unbounded values", "anchors": ["src/ofp_tcp_input.c:tcp_dooptions", "src/ofp_tcp_output.c:ofp_tcp_addoptions"]}
{"id": "C68", "title": "TCP segments outside the window are harmless", "statement": "On a synchronized connection a segment whose payload and FIN lie wholly before the next expected byte, or that starts past the receive window, hands no bytes to the user, signals no end of stream and leaves the receiving side unchanged; one that starts past the window and is no reset is answered with an ACK and does nothing else, unless it carries data for a socket the user has already closed.", "quantifier": "every connection state, every segment within half the sequence space", "why_tests_cant": "2^32 sequence numbers, wraparound, all combinations of flags, window and queue", "anchors": ["src/ofp_tcp_input.c:ofp_tcp_do_segment"]}
{"id": "C69", "title": "TCP connections end only for cause", "statement": "A reset closes a connection exactly if its sequence number is in the window around the last ACK sent and, when established, within one of what is expected next or of the last ACK sent; otherwise it has no effect, and it is never answered. No other segment closes a synchronized connection except a SYN not before what is expected next, data for a socket already closed, or the ACK of our FIN in LAST_ACK; a reset is sent only for data that arrives after the socket is closed.", "quantifier": "every connection, every segment, every state", "why_tests_cant": "blind attackers choose any sequence number and flags", "anchors": ["src/ofp_tcp_input.c:ofp_tcp_do_segment"]}
{"id": "C70", "title": "TCP delivers the peer's stream over the life of a connection", "statement": "Whatever order, duplication, overlap and repetition the segments come in and however the control block changes in between, the bytes handed over are the peer's stream from its start without gap or repetition; end of stream is signalled only when all of it has been handed over, once, and nothing is handed over after it.", "quantifier": "every history of segments of a peer, in any order", "why_tests_cant": "unbounded histories with trimming, reassembly, handshake and FIN interleaved", "anchors": ["src/ofp_tcp_input.c:ofp_tcp_do_segment", "src/ofp_tcp_reass.c:ofp_tcp_reass"]}
{"id": "C71", "title": "TCP states follow the RFC 793 diagram", "statement": "Every segment that does not end a synchronized connection moves it along the RFC 793 diagram: the handshake is completed only by an ACK of something sent, our FIN counts as acknowledged exactly if the ACK covers more than the whole send buffer, the peer's FIN is taken exactly if end of stream is signalled.", "quantifier": "every segment in every synchronized state", "why_tests_cant": "all combinations of state, flags, ACK and buffer", "anchors": ["src/ofp_tcp_input.c:ofp_tcp_do_segment"]}
{"id": "C72", "title": "Segments with stale timestamps are ignored (PAWS)", "statement": "A segment other than a reset whose timestamp is older than the one remembered is ignored, at most acknowledged, unless the remembered one is older than 24 days; the timestamp remembered never goes back except after such a pause.", "quantifier": "every connection and segment", "why_tests_cant": "wraparound of 32-bit timestamps", "anchors": ["src/ofp_tcp_input.c:ofp_tcp_do_segment"]}
{"id": "C73", "title": "Acknowledgements free exactly what is acknowledged", "statement": "The send buffer loses exactly what is newly acknowledged, and only for an ACK of something that has been sent and not yet been acknowledged; input processing returns for every segment, without reading the urgent byte outside the payload or dropping more than the send buffer holds; the send window never exceeds what the peer announced.", "quantifier": "every segment and connection", "why_tests_cant": "every ACK value, window and buffer", "anchors": ["src/ofp_tcp_input.c:ofp_tcp_do_segment"]}
{"id": "C74", "title": "A connection attempt is answered only by an ACK of its SYN", "statement": "While a connection attempt is under way a segment that acknowledges anything but our SYN is answered with a reset and leaves the attempt as it is; a reset without ACK and a segment without SYN are ignored; a reset that acknowledges our SYN refuses the connection; a SYN that acknowledges it opens the connection, with the peer's sequence numbers and any data carried along; a bare SYN is remembered and nothing is handed over.", "quantifier": "every segment in SYN_SENT", "why_tests_cant": "spoofed segments with any fields", "anchors": ["src/ofp_tcp_input.c:ofp_tcp_do_segment"]}
{"id": "C75", "title": "Half-open connections are accounted for, isolated and bounded", "statement": "A SYN to a listening socket, if there is memory and the SYN|ACK goes out, is answered with a SYN|ACK that acknowledges it and is remembered; a repeated SYN renegotiates nothing; there is one record per connection; traffic about one connection never touches the record of another except that a new SYN may evict the oldest record of the same hash, and in a flood exactly the newest thirty per hash are kept; the reported count is exact, memory is neither lost nor freed twice, and every call completes.", "quantifier": "every history of segments and ICMP errors, for the counts also every interleaving of overlapping SYN processing", "why_tests_cant": "floods, hash collisions, allocation failures and interleavings are unbounded", "anchors": ["src/ofp_tcp_syncache.c:_syncache_add,ofp_syncache_expand,ofp_syncache_chkrst,ofp_syncache_badack,ofp_syncache_unreach,syncache_insert,syncookie_generate,syncookie_lookup", "src/ofp_tcp_input.c:955-1241"]}
{"id": "C76", "title": "A listening socket only accepts what it invited", "statement": "With SYN cookies off, an ACK opens a connection exactly if a SYN|ACK for these endpoints is remembered, it acknowledges it, its sequence number lies in the window offered and it echoes the timestamp; the connection starts with the negotiated numbers and options; over any history the connections never outnumber the SYN|ACKs for the same endpoints and sequence numbers. A reset forgets a half-open connection exactly if it is in the window and carries nothing else; no ICMP error does. SYN|ACKs are only sent for plausible SYNs.", "quantifier": "every history (interleavings for the count), every segment", "why_tests_cant": "sequence number wraparound, forged segments", "anchors": ["src/ofp_tcp_syncache.c:_syncache_add,ofp_syncache_expand,ofp_syncache_chkrst,ofp_syncache_badack,ofp_syncache_unreach,syncache_insert,syncookie_generate,syncookie_lookup", "src/ofp_tcp_input.c:955-1241"]}
{"id": "C77", "title": "SYN cookies keep their promise", "statement": "With SYN cookies on, a SYN|ACK is honoured for 16 seconds even if nothing about it is remembered, whatever happens in between and whatever the digest function: the connection has the sequence numbers of the handshake and the MSS rounded down to the table; with timestamps also SACK and the window scales.", "quantifier": "every digest function, every history of calls in between, every SYN", "why_tests_cant": "renewal of the two secrets races with the life of the cookie", "anchors": ["src/ofp_tcp_syncache.c:_syncache_add,ofp_syncache_expand,ofp_syncache_chkrst,ofp_syncache_badack,ofp_syncache_unreach,syncache_insert,syncookie_generate,syncookie_lookup", "src/ofp_tcp_input.c:955-1241"]}
{"id": "C78", "title": "Socket structures are never leaked, shared or used after free", "statement": "For every interleaving of the critical sections of socket(), connect(), listen(), accept(), shutdown(), close() and of the events of TCP, no call touches freed memory, fails an assertion or loops; every slot of the socket table has exactly one owner (free, an open descriptor, a running call, a listening socket, TCP finishing a closed connection, or lost by a failed accept); a descriptor is handed out only when nobody holds it; sockets and protocol control blocks refer to each other and the only block without socket is in TIME_WAIT; close() ends with the slot free or kept by TCP, and TCP gives it back in the step in which it ends.", "quantifier": "every run of any number of threads, every table size, every choice of allocation failures and of protocol events", "why_tests_cant": "use after free and double free depend on the interleaving of close(), the timers and input", "anchors": ["src/ofp_uipc_socket.c:soalloc,sodealloc,ofp_sonewconn,ofp_solisten_proto,sofree,ofp_soclose,ofp_soabort,ofp_soaccept,soisconnected", "src/ofp_syscalls.c:ofp_accept,ofp_close,ofp_listen", "src/ofp_tcp_usrreq.c:tcp_usr_*,tcp_detach", "src/ofp_tcp_timewait.c:ofp_tcp_twstart,ofp_tcp_twclose"]}
{"id": "C79", "title": "accept() delivers connections in order, once, within the backlog", "statement": "Over any run in which the listening socket is not closed, the connections that became ready, in the order in which they did, are exactly those accept() has taken followed by those still queued; the counters are the lengths of the queues; with backlog at most B at most B+1 connections are incomplete and at most 3B/2+B+1 are pending; a pending connection always belongs to a socket that is open or being closed; a listening socket without pending error is reported readable exactly when accept() takes a connection.", "quantifier": "every run, every backlog, every order of handshakes", "why_tests_cant": "order and accounting must hold for every interleaving of handshakes, resets, accepts and evictions", "anchors": ["src/ofp_uipc_socket.c:soalloc,sodealloc,ofp_sonewconn,ofp_solisten_proto,sofree,ofp_soclose,ofp_soabort,ofp_soaccept,soisconnected", "src/ofp_syscalls.c:ofp_accept,ofp_close,ofp_listen", "src/ofp_tcp_usrreq.c:tcp_usr_*,tcp_detach", "src/ofp_tcp_timewait.c:ofp_tcp_twstart,ofp_tcp_twclose"]}
{"id": "C80", "title": "A failed accept() or a misused descriptor costs nothing", "statement": "A connection that dies before accept() returns leaves no trace; listen() is refused on a socket that cannot listen; a descriptor that is not open is refused; a listening socket reported readable can be accepted from.", "quantifier": "every run", "why_tests_cant": "resource exhaustion by repetition and misuse of stale descriptors", "anchors": ["src/ofp_uipc_socket.c:soalloc,sodealloc,ofp_sonewconn,ofp_solisten_proto,sofree,ofp_soclose,ofp_soabort,ofp_soaccept,soisconnected", "src/ofp_syscalls.c:ofp_accept,ofp_close,ofp_listen", "src/ofp_tcp_usrreq.c:tcp_usr_*,tcp_detach", "src/ofp_tcp_timewait.c:ofp_tcp_twstart,ofp_tcp_twclose"]}
{"id": "C81", "title": "Every TCP segment carries the user's bytes at the right place", "statement": "Whatever has been written, acknowledged, selectively acknowledged, timed out, retransmitted and refused before, and whatever fails during the call: every segment ofp_tcp_output makes carries exactly the bytes the user wrote at the position its sequence number stands for; a FIN is set only once the user has closed and only right after his last byte; no read of the send buffer leaves it and no panic strikes. Forced sends must be probes.", "quantifier": "every history of writes, ACKs, SACKs, timeouts and calls; every state of windows and flags; every pattern of allocation and output failures", "why_tests_cant": "the sequence number, buffer offset and length come from five interacting mechanisms (window, SACK holes, persist, FIN, SYN) and wrap around", "anchors": ["src/ofp_tcp_output.c:ofp_tcp_output,ofp_tcp_setpersist,ofp_tcp_addoptions", "src/ofp_tcp_sack.c:ofp_tcp_sack_output,tcp_sack_adjust", "include/ofpi_tcp_fsm.h:tcp_outflags", "src/ofp_uipc_sockbuf.c:ofp_sockbuf_copy_out"]}
{"id": "C82", "title": "TCP respects the peer's window, the congestion window and the segment size", "statement": "No byte is sent beyond the smaller of the two windows, except a one-byte probe of a closed window when sending is forced, and during recovery with SACK: up to the peer's window or within what has been sent before. No segment exceeds the maximum with its options.", "quantifier": "every history and every call", "why_tests_cant": "needs every combination of window shrinking, recovery and probes", "anchors": ["src/ofp_tcp_output.c:ofp_tcp_output,ofp_tcp_setpersist,ofp_tcp_addoptions", "src/ofp_tcp_sack.c:ofp_tcp_sack_output,tcp_sack_adjust", "include/ofpi_tcp_fsm.h:tcp_outflags", "src/ofp_uipc_sockbuf.c:ofp_sockbuf_copy_out"]}
{"id": "C83", "title": "Sending comes to an end", "statement": "A call of ofp_tcp_output returns after finitely many segments, if from some pass on packets can be allocated and are accepted. (It does not otherwise: refuted.)", "quantifier": "every history, every pattern of failures", "why_tests_cant": "non-termination cannot be observed by a test", "anchors": ["src/ofp_tcp_output.c:ofp_tcp_output,ofp_tcp_setpersist,ofp_tcp_addoptions", "src/ofp_tcp_sack.c:ofp_tcp_sack_output,tcp_sack_adjust", "include/ofpi_tcp_fsm.h:tcp_outflags", "src/ofp_uipc_sockbuf.c:ofp_sockbuf_copy_out"]}
{"id": "C84", "title": "Sending leaves the rest of the connection alone", "statement": "A call of ofp_tcp_output, from any state, changes only what has been sent, announced and acknowledged and the timers, not the send buffer, the congestion window or anything else of the control block; each segment acknowledges what has been received; ACK and RST are set as the state demands; SYN and FIN only in the states that allow them. So the properties of input hold with the real output.", "quantifier": "every state, every environment", "why_tests_cant": "a frame property quantifies over all fields and states", "anchors": ["src/ofp_tcp_output.c:ofp_tcp_output,ofp_tcp_setpersist,ofp_tcp_addoptions", "src/ofp_tcp_sack.c:ofp_tcp_sack_output,tcp_sack_adjust", "include/ofpi_tcp_fsm.h:tcp_outflags", "src/ofp_uipc_sockbuf.c:ofp_sockbuf_copy_out"]}
{"id": "C85", "title": "The receive window offered is kept", "statement": "A window offered never exceeds the free buffer space unless already promised; the promise remembered covers each offer and never moves left; an offer takes back less than one unit of the window scale.", "quantifier": "every state, every buffer space below 2^30, every scale up to 14", "why_tests_cant": "right-edge arithmetic wraps and depends on history", "anchors": ["src/ofp_tcp_output.c:ofp_tcp_output,ofp_tcp_setpersist,ofp_tcp_addoptions", "src/ofp_tcp_sack.c:ofp_tcp_sack_output,tcp_sack_adjust", "include/ofpi_tcp_fsm.h:tcp_outflags", "src/ofp_uipc_sockbuf.c:ofp_sockbuf_copy_out"]}
{"id": "C86", "title": "Unacknowledged data is always under a timer", "statement": "After a call that sent data or a FIN, or found nothing to send although there are bytes in the buffer, the retransmission or persist timer runs; a running timer keeps running unless a forced send finds the window open.", "quantifier": "every history and call", "why_tests_cant": "a stall only shows when the one packet that would end it is lost", "anchors": ["src/ofp_tcp_output.c:ofp_tcp_output,ofp_tcp_setpersist,ofp_tcp_addoptions", "src/ofp_tcp_sack.c:ofp_tcp_sack_output,tcp_sack_adjust", "include/ofpi_tcp_fsm.h:tcp_outflags", "src/ofp_uipc_sockbuf.c:ofp_sockbuf_copy_out"]}
{"id": "C87", "title": "TCP_NODELAY sends everything at once", "statement": "With TCP_NODELAY, no recovery, room in the windows and no failures, one call sends exactly the bytes not sent yet, in order.", "quantifier": "every history, every amount of data and segment size", "why_tests_cant": "must hold for every split into segments", "anchors": ["src/ofp_tcp_output.c:ofp_tcp_output,ofp_tcp_setpersist,ofp_tcp_addoptions", "src/ofp_tcp_sack.c:ofp_tcp_sack_output,tcp_sack_adjust", "include/ofpi_tcp_fsm.h:tcp_outflags", "src/ofp_uipc_sockbuf.c:ofp_sockbuf_copy_out"]}
{"id": "C88", "title": "TCP delivers the bytes written, in order, to the other end", "statement": "With any network that loses, reorders, duplicates and delays segments made by ofp_tcp_output out of what one user writes, the other user gets, from ofp_tcp_do_segment, a prefix of it at any time, and the end of the stream only if the writer has closed and all has been delivered.", "quantifier": "every schedule of writes, output calls, losses, duplications, deliveries", "why_tests_cant": "end-to-end correctness over all network behaviours", "anchors": ["src/ofp_tcp_output.c:ofp_tcp_output,ofp_tcp_setpersist,ofp_tcp_addoptions", "src/ofp_tcp_sack.c:ofp_tcp_sack_output,tcp_sack_adjust", "include/ofpi_tcp_fsm.h:tcp_outflags", "src/ofp_uipc_sockbuf.c:ofp_sockbuf_copy_out", "src/ofp_tcp_input.c:ofp_tcp_do_segment", "src/ofp_tcp_reass.c:ofp_tcp_reass"]}
{"id": "C89", "title": "The digest functions compute MD5", "statement": "However a message is cut into calls of ofp_MD5Update, and whatever the context held before ofp_MD5Init, ofp_MD5Final gives the digest of RFC 1321 of the whole message, touches no memory outside the context and the pieces, and leaves the context zero. Pieces have up to 2^32-64 bytes; the total is unbounded (the length counts modulo 2^64 bits).", "quantifier": "every message, every cut, every initial content of the context", "why_tests_cant": "all messages and all cuts; the bit counter carries at 2^29 bytes", "anchors": ["src/ofp_md5c.c:ofp_MD5Init,ofp_MD5Update,ofp_MD5Final,MD5Transform"]}
{"id": "C90", "title": "Initial sequence numbers of reopened connections move forward", "statement": "ofp_tcp_new_isn returns a keyed word of the connection plus a running offset: when the same connection is opened again, its initial sequence number is ahead of the previous one by at least 4096 and less than 2^31, and by a megabyte per second between the two, however many other connections are opened in between and however the clock advances (within 34 minutes and half a million connections). What the comment of the function promises beyond that is false.", "quantifier": "every history of connections, every reading of the clock", "why_tests_cant": "depends on wrap-around of a counter over all histories and times", "anchors": ["src/ofp_tcp_subr.c:ofp_tcp_new_isn"]}
{"id": "C91", "title": "Retransmission timer bounds", "statement": "Whatever round trips are measured and however often timers expire, the estimator's arithmetic never overflows, every retransmission interval lies between the configured minimum and 64 s, every persist interval between 5 and 60 s; the smoothed round trip stays within the measured ones; after a measurement the timer is at least that round trip and at most about five times the longest of the history.", "quantifier": "every history of measured round trips, timer expiries and entries into the persist state; every configured minimum and slop", "why_tests_cant": "histories of any length; fixed-point arithmetic with overflow", "anchors": ["src/ofp_tcp_input.c:tcp_xmit_timer", "src/ofp_tcp_timer.c:ofp_tcp_timer_rexmt", "src/ofp_tcp_output.c:ofp_tcp_setpersist"]}
{"id": "C92", "title": "When a connection is given up", "statement": "Without a measured round trip in between, a segment is retransmitted exactly twelve times, at growing intervals, and the thirteenth expiry ends the connection, not earlier than 100 s after it was first sent; the persist timer ends a connection only after twelve probes and 76 s of silence. (The 100 s and the growth are false of the code.)", "quantifier": "every history before, every sequence of expiries", "why_tests_cant": "all histories of the estimator before the outage", "anchors": ["src/ofp_tcp_timer.c:ofp_tcp_timer_rexmt,ofp_tcp_timer_persist", "src/ofp_tcp_output.c:ofp_tcp_setpersist"]}
{"id": "C93", "title": "Keepalive", "statement": "With keepalive a connection is cut off only if nothing has arrived for TCP_KEEPIDLE plus TCP_KEEPCNT times TCP_KEEPINTVL (up to the granularity), is cut off at the latest one interval after that, and is not probed before TCP_KEEPIDLE (false of the code: 60 s at most).", "quantifier": "every schedule of arriving segments and timer firings, every value of the three options", "why_tests_cant": "all schedules", "anchors": ["src/ofp_tcp_timer.c:ofp_tcp_timer_keep,ofp_tcp_timer_activate", "src/ofp_tcp_input.c:tcp_do_segment"]}
{"id": "C94", "title": "TIME_WAIT lasts two MSL", "statement": "A connection leaves TIME_WAIT only by the slow timeout two MSL after it entered or after its peer last repeated its FIN, by a SYN newer than everything received, or because the table of TIME_WAIT entries is full, and then the one waiting longest goes; after a slow timeout none is left whose time is over. A RST never ends it.", "quantifier": "every history of connections entering, segments, timeouts, closes and time", "why_tests_cant": "interleavings over all histories; wrap-around of sequence numbers", "anchors": ["src/ofp_tcp_timewait.c:ofp_tcp_twstart,ofp_tcp_twcheck,ofp_tcp_tw_2msl_scan", "src/ofp_tcp_timer.c:ofp_tcp_slowtimo"]}
{"id": "C95", "title": "What TIME_WAIT sends", "statement": "From TIME_WAIT only the connection's own acknowledgement is sent, with the last sequence numbers and the window last advertised, when it enters and at most once per segment that carries ACK and not RST; two ends in TIME_WAIT do not answer each other's acknowledgements (false of the code); only a connection request may end it (false: a SYN|ACK does).", "quantifier": "every history, every segment", "why_tests_cant": "all flag combinations and sequence numbers after all histories", "anchors": ["src/ofp_tcp_timewait.c:ofp_tcp_twcheck,ofp_tcp_twrespond"]}
{"id": "C96", "title": "TIME_WAIT resources", "statement": "Entering TIME_WAIT always succeeds, entries are conserved, and control block and socket are freed exactly once: the block when TIME_WAIT is over and the application has closed, the socket accordingly, in whichever order these happen.", "quantifier": "every history", "why_tests_cant": "use after free and leaks depend on the order of events", "anchors": ["src/ofp_tcp_timewait.c:ofp_tcp_twstart,ofp_tcp_twclose", "src/ofp_tcp_usrreq.c:tcp_usr_close,tcp_detach", "src/ofp_uipc_socket.c:ofp_soclose,ofp_sofree"]}
{"id": "C97", "title": "Queued packets leave exactly once, in order", "statement": "Packets handed to an interface for transmission leave in the order in which they were handed over, each exactly once: accepted by the interface or, when it accepts fewer than offered, freed. Fewer than one burst wait at any time; after ofp_send_pending_pkt, none; termination frees those that wait. No slot outside a port's table is touched.", "quantifier": "every sequence of packets and pending calls over all ports, every burst size from 1, every number of packets the interface accepts", "why_tests_cant": "histories mixing ports, partial acceptance and pending calls", "anchors": ["src/ofp_pkt_send_burst.c:send_pkt_out,send_table,ofp_send_pending_pkt,ofp_send_pkt_out_init_local,ofp_send_pkt_out_term_local"]}
{"id": "C98", "title": "Configured addresses and routes are exact", "statement": "After every sequence of configuration calls (bring an interface or VLAN interface up with an address, add and delete addresses, take it down, set and delete routes) that asks for nothing contradictory - no two addresses of a VRF equal or in one subnet, no user route in their place, mask lengths 1 to 31, at most seven addresses, addresses added to and deleted from interfaces that have one, a VLAN interface not changed of VRF and left to create - every call succeeds; each interface has exactly the addresses asked for, with mask length and broadcast address, the address last brought up as primary one; each routing table has exactly the host route and the subnet route of each address and the user's routes, with the right interface; VLAN interfaces are conserved; after an interface is taken down nothing of it is left.", "quantifier": "every such sequence of calls, of any length, over any interfaces, VLANs, VRFs, addresses, mask lengths and user routes", "why_tests_cant": "histories interleaving calls on many interfaces; deletion reorders the address list, up replaces the primary address", "anchors": ["src/ofp_portconf.c:ofp_config_interface_up_v4,ofp_config_interface_add_ip_v4,ofp_config_interface_del_ip_v4,ofp_config_interface_down,ofp_ifnet_ip_add,ofp_ifnet_ip_remove,ofp_set_first_ifnet_addr,ofp_free_ifnet_ip_list,ofp_get_create_ifnet", "src/ofp_route.c:add_route,del_route"]}
{"id": "C99", "title": "An interface is found by any of its addresses", "statement": "ofp_ifaddr_elem_get (bind, multicast membership, source selection) finds, for an address and a VRF, the interface of that VRF that has the address, and none if there is no such interface.", "quantifier": "every sequence of configuration calls, every address and VRF", "why_tests_cant": "the list of interfaces with an address changes with every configuration call", "anchors": ["src/ofp_portconf.c:ofp_ifaddr_elem_get,ofp_ifaddr_elem_add,ofp_ifaddr_elem_del"]}
{"id": "C100", "title": "Multicast memberships and source filters of sockets", "statement": "After every sequence of multicast calls on any number of sockets (join and leave a group or a source, block and unblock a source, set a source filter, close) each call returns what RFC 3678 says and each socket has exactly the memberships, modes and sources it asked for: getsourcefilter returns them, and a datagram passes the filter of a socket iff the socket is a member of its group on the interface and, in mode INCLUDE, names its source, or, in mode EXCLUDE, does not.", "quantifier": "every sequence of calls of any length, any number of sockets, interfaces, groups and sources", "why_tests_cant": "filters are updated through a two-phase commit over trees; their state depends on the whole history", "anchors": ["src/ofp_in_mcast.c:inp_join_group,inp_leave_group,inp_block_unblock_source,inp_set_source_filters,inp_get_source_filters,ofp_inp_freemoptions,ofp_imo_multi_filter,imf_get_source,imf_graft,imf_prune,imf_rollback,imf_leave,imf_commit,imf_reap"]}
{"id": "C101", "title": "Group membership of an interface is the sum of the sockets'", "statement": "An interface has a record of a group iff some socket is a member of it there; its reference count is the number of these members, and its counts of EXCLUDE members, of members that take all sources, and per source of members that exclude and include it are exact (modulo 2^16); hence the filter mode and the sources that IGMP reports are those of RFC 3376: a source is excluded only if all listeners exclude it.", "quantifier": "every sequence of multicast calls on any number of sockets, and every timing of IGMP's commits", "why_tests_cant": "counts kept by difference drift only after particular histories", "anchors": ["src/ofp_in_mcast.c:inm_merge,ims_merge,inm_get_source,inm_reap,ofp_inm_commit,in_getmulti,ofp_inm_release_locked,ofp_in_joingroup_locked,ofp_in_leavegroup_locked", "include/ofpi_in_var.h:ims_get_mode"]}
{"id": "C102", "title": "UDP datagrams to groups reach every listener once", "statement": "A well-formed UDP datagram to a multicast group or to the broadcast address is delivered exactly once to every socket bound to its port and address that is not connected elsewhere and, for a group, whose memberships after any history of multicast calls want its source on the interface; no other socket gets it.", "quantifier": "every datagram, every list of sockets and options, every history of multicast calls", "why_tests_cant": "the result depends on the order of the sockets and the memberships of all of them", "anchors": ["src/ofp_udp_usrreq.c:ofp_udp_input,udp_append", "src/ofp_in_mcast.c:ofp_imo_multi_filter"]}
{"id": "C103", "title": "UDP input conserves packets", "statement": "Whatever the datagram and the sockets, every copy made is queued, taken by an event function or freed, exactly once; so is the packet itself unless the caller gets it back; a unicast datagram goes to the socket looked up and no other; nothing is read beyond the packet.", "quantifier": "every datagram, every set of sockets, every failure of packet copies", "why_tests_cant": "double frees and leaks depend on combinations of full buffers, failing copies and options", "anchors": ["src/ofp_udp_usrreq.c:ofp_udp_input,udp_append", "src/ofp_uipc_sockbuf.c:packet_accepted_as_event,ofp_sbappendaddr_locked"]}
{"id": "C104", "title": "VXLAN remembers where each MAC address is reached", "statement": "After every history of received frames and clock ticks, asking for the tunnel endpoint of a MAC address gives the address it was last learned from, for the documented hour and, at most a few minutes later, none; never an address learned for another MAC, whichever thread asks and when.", "quantifier": "every history of learned addresses and ticks, every point of a concurrent update", "why_tests_cant": "a lock-free hash table with deletion: what is found depends on collisions, the order of insertions and expiries, and interleavings", "anchors": ["src/ofp_vxlan.c:ofp_vxlan_set_mac_dst,ofp_vxlan_get_mac_dst,ofp_vxlan_tmo"]}
{"id": "C105", "title": "A tunnel hands out the packet that was put in", "statement": "A packet sent through a GRE or VXLAN tunnel comes out at the other end byte for byte, whatever the outer headers became on the way, with the link addresses it arrived with, its network identifier, and lengths that match; optional GRE header fields are skipped.", "quantifier": "every inner packet, identifier, address, outer header and set of GRE options", "why_tests_cant": "offset arithmetic, byte order and flag combinations", "anchors": ["src/ofp_gre.c:ofp_gre_input,ofp_output_ipv4_to_gre,ofp_output_ipv6_to_gre", "src/ofp_vxlan.c:ofp_vxlan_input,ofp_vxlan_prepend_hdr"]}
{"id": "C106", "title": "IPv6 upper-layer checksums are the standard ones", "statement": "The checksum the stack computes over an IPv6 packet, to check UDP, TCP and ICMPv6 messages, is the one RFC 2460 defines over the pseudo header and the message, on little- and big-endian machines.", "quantifier": "every packet, message length, address, segmentation, byte order", "why_tests_cant": "sums with carries over arbitrary data and every pair of addresses", "anchors": ["src/ofp_in6_cksum.c:ofp_in6_cksum", "src/ofp_in6.c:ofp_in6_getscope"]}
{"id": "C107", "title": "Neighbor discovery messages are well formed", "statement": "Every neighbor solicitation or advertisement sent is a valid IPv6 packet with a checksum its receiver accepts, goes to the right link and IPv6 addresses (solicited-node group, all-nodes group), names the right target and carries the interface's MAC address; a solicitation asks for the next hop.", "quantifier": "every interface, VLAN, target and destination address, byte order", "why_tests_cant": "checksums and layouts for all addresses", "anchors": ["src/ofp_nd6.c:ofp_nd6_ns_output,ofp_nd6_na_output", "src/ofp_pkt_processing.c:ofp_ip6_output_common"]}
{"id": "C108", "title": "Two hosts resolve each other's IPv6 address", "statement": "If host A solicits host B's address and the packets get through, B answers, A then knows B's MAC address and B knows A's, whatever their addresses, VLAN tags and byte orders.", "quantifier": "every pair of hosts, addresses, MACs, VLANs and contents of the packet buffers", "why_tests_cant": "an end-to-end property of two programs over all addresses", "anchors": ["src/ofp_nd6.c", "src/ofp_icmp6.c:ofp_icmp6_input"]}
{"id": "C109", "title": "Only valid neighbor discovery messages change anything", "statement": "Nothing is learned from and nothing answered to a message that is too short, has a non-zero code or a wrong checksum or came from beyond a router; only solicitations for own addresses are answered; what is learned is what the message says; no byte beyond the packet is read.", "quantifier": "every received packet and every content of memory behind it", "why_tests_cant": "arbitrary attacker-controlled packets", "anchors": ["src/ofp_icmp6.c:ofp_icmp6_input", "src/ofp_nd6.c:ofp_nd6_ns_input,ofp_nd6_na_input"]}
{"id": "C110", "title": "ICMPv6 errors are traced to the right flow without leaving the packet", "statement": "For an ICMPv6 error about a packet with any chain of extension headers, the protocol told about it gets that packet's source, its final destination (after routing headers), the protocol and the place of its transport header; no chain, however malformed, makes the search loop or read outside the received packet.", "quantifier": "every chain of extension headers, every received packet, byte order", "why_tests_cant": "chains have no bound on their length and the bytes are the attacker's", "anchors": ["src/ofp_icmp6.c:icmp6_notify_error", "src/ofp_udp6_usrreq.c:ofp_udp6_ctlinput"]}
{"id": "C111", "title": "Interface names identify interfaces", "statement": "Every interface and VLAN or tunnel id has one name (fp0, fp0.100, gre3, vxlan7, lo1); the name printed for it is read back as the same interface, no two interfaces have the same name, and printing it never overruns its buffer. No other text is accepted as a name.", "quantifier": "every port, every VLAN or tunnel id up to 2^31-1, every text typed", "why_tests_cant": "names are built and parsed for two billion ids; decimal conversions and prefixes can collide", "anchors": ["src/ofp_util.c:ofp_port_vlan_to_ifnet_name,ofp_name_to_port_vlan", "include/ofpi_portconf.h"]}
{"id": "C112", "title": "IPv6 link-local addresses are unique per MAC address", "statement": "An interface's link-local address is fe80::/64 with the modified EUI-64 of its MAC address (RFC 4291), so that interfaces with different MAC addresses never share one.", "quantifier": "every MAC address", "why_tests_cant": "2^48 addresses", "anchors": ["src/ofp_util.c:ofp_mac_to_link_local"]}
{"id": "C113", "title": "IPv6 and IPv4 datagrams reach the right socket", "statement": "A received IPv6 UDP datagram is given to the socket connected to its sender at that local address and port, if there is one; else to a socket bound to its destination; else to a socket bound to the any-address on that port; else to nobody; and only to IPv6 sockets. IPv4 datagrams, in the table shared by both kinds, are delivered likewise and never to an IPv6-only socket.", "quantifier": "every history of socket, bind, connect, disconnect, close and option calls on both kinds of sockets, every datagram", "why_tests_cant": "the hash table can hold any mix of sockets in any chain order", "anchors": ["src/ofp_in6_pcb.c:ofp_in6_pcblookup_hash_locked,ofp_in6_pcbbind,ofp_in6_pcbconnect_mbuf", "src/ofp_in_pcb.c:in_pcblookup_hash_locked,ofp_in_pcbinshash", "src/ofp_udp6_usrreq.c"]}
{"id": "C114", "title": "An IPv6 bind gives the port asked for, or a free one, exclusively", "statement": "Binding an IPv6-only UDP socket to a named port succeeds exactly when no conflicting socket holds it and then the socket has that address and port; without a port a free one is chosen; no two sockets that do not share ever hold overlapping addresses on a port; a failed bind changes nothing.", "quantifier": "every history of calls, every address, port and order of the ports tried", "why_tests_cant": "all orders of binds and closes", "anchors": ["src/ofp_in6_pcb.c:ofp_in6_pcbbind,in6_pcblookup_local,ofp_in6_pcbsetport", "src/ofp_udp6_usrreq.c:udp6_bind"]}
{"id": "C115", "title": "Exactly the supported sockets can be created", "statement": "ofp_socket with a family, type and protocol creates a UDP socket for datagrams and a TCP socket for streams, over IPv4 or IPv6, if the protocol is 0 or the one belonging to the type, and fails with EPROTONOSUPPORT for every other combination.", "quantifier": "every family, type and protocol number", "why_tests_cant": "2^96 combinations, tables shared with packet input", "anchors": ["src/ofp_uipc_domain.c:ofp_pffindproto", "src/ofp_uipc_socket.c:ofp_socreate", "src/ofp_in_proto.c:ofp_inetsw", "src/ofp_in6_proto.c:ofp_inet6sw"]}
{"id": "C116", "title": "Every packet for the host reaches the function serving its protocol", "statement": "An IPv4 or IPv6 packet addressed to the host is given to the function that serves its protocol or next header and to no other, the rest goes to the slow path, and dispatch ends with a verdict without any access outside its tables.", "quantifier": "every protocol number, every packet, with and without a slow path and IPsec", "why_tests_cant": "the verdict depends on what each handler returns", "anchors": ["src/ofp_pkt_processing.c:ipv4_transport_classifier,ipv6_transport_classifier", "src/ofp_ip_init.c:ofp_ip_init", "src/ofp_ip6_init.c:ofp_ip6_init", "src/ofp_icmp6.c:ofp_icmp6_input", "src/ofp_ipsec.c:ofp_ipsec_init_global"]}
{"id": "C117", "title": "Connection hash tables are made and indexed correctly", "statement": "A hash table made for n elements has a power of two of chains, at most n and more than half of n, and its mask selects exactly them. Every lookup in the TCP and UDP tables stays inside them, every chain can be used, and no two tables share memory; with one TCP table per CPU (OFP_RSS) too.", "quantifier": "every table size, every address and port pair, both byte orders, every number of CPUs", "why_tests_cant": "2^64 connections; an index out of range corrupts memory silently", "anchors": ["src/ofp_subr_hash.c:ofp_hashinit_flags,ofp_tcp_hashinit", "src/ofp_in_pcb.c:ofp_in_pcbinfo_init,ofp_tcp_rss_in_pcbinfo_init", "include/ofpi_in_pcb.h:INP_PCBHASH,INP_PCBPORTHASH"]}
