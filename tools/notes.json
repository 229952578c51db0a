{
 "C29": {
  "note": "Agreement of the optimised and baseline clusterings is proved for urls without inner white space and refuted with white space (C29_agrees_with_baseline_refuted)."
 },
 "C34": {
  "note": "Histories are sequences because the tracker holds one mutex around every operation; the clock is assumed non-decreasing for soundness of expiry."
 },
 "C35": {
  "note": "C35_nat_test_total_refuted records that a decoded connection without addresses makes IsNAT dereference nil."
 },
 "C36": {
  "status": "partial",
  "note": "Round trip and termination proved for all inputs; freedom from out-of-range access holds except for protocol attributes with too little data, where the decoder panics (C36_no_overread_refuted)."
 },
 "C11": {
  "note": "An empty message at the very end of the packed data is lost (C11_trailing_empty_message_refuted)."
 },
 "C09": {
  "note": "Reading an attribute whose value is shorter than its declared type panics (C09_short_value_panics_refuted)."
 },
 "C06": {
  "note": "A request flagged only by its error type is never traced (C06_error_type_traced_refuted)."
 },
 "C15": {
  "status": "partial",
  "note": "Proved: no pair is reported twice in any interleaving, and histories without overlap behave sequentially. The full property is false: C15_connection_goes_dark_refuted (a response racing with the timeout silences the connection for ever) and C15_request_lost_refuted."
 },
 "C16": {
  "note": "Proved for the sequential analyzer and non-overlapping histories; overlapping goroutines make the gauge drift (C16_gauge_drifts_refuted)."
 },
 "C12": {
  "note": "Exact when the times lie in the ranges the kernel reports; otherwise the sum holds modulo 2^64."
 },
 "C19": {
  "note": "Proved for one event or scan at a time, given what the DNS parser finds. Findings: a repeated id replaces the earlier query (C19_repeated_id_lost_refuted), the cache may then never be removed, and overlapping goroutines can report a query twice or lose it (C19_overlap_*_refuted)."
 },
 "C17": {
  "note": "Sequential histories; the code guards additions and removals with one mutex."
 },
 "C18": {
  "note": "Parsers are a parameter (parse). Finding: after 50 unrecognised messages a port stops recognising new protocols until the 5000th (C18_new_protocol_shadowed_refuted)."
 },
 "C20": {
  "note": "Every reader is covered. One defect: a compact string followed by exactly one more byte is read together with it (C20_compact_string_takes_next_byte_refuted); C20_strings excludes that case. The blank- and line-readers panic only for start offsets outside the payload, which no caller passes."
 },
 "C27": {
  "note": "Printable-only output is proved for the protocols rendered as ASCII; for HTTP and Redis the text is a prefix of the payload, and a cut inside a character drops that character. Refuted: short Dubbo payloads panic, HTTP text may hold control characters, malformed input may give malformed UTF-8, two-byte characters at the end may be dropped."
 },
 "C21": {
  "note": "ASCII urls are recorded unchanged; others up to the UTF-8 cut of C27. url clustering and base64 are parameters."
 },
 "C28": {
  "note": "Refuted beyond the stated header form: an empty-valued header hides later ones; a header without the blank behind the colon loses its first value byte; an undecodable SkyWalking header hides other schemes."
 },
 "C22": {
  "note": "Refuted beyond that: an argument that is a command name replaces the command sent; a reply's bulk string that is a command name overwrites the request's command; binary values holding a carriage return are not recognised."
 },
 "C23": {
  "note": "Requests and responses in closed form. Refuted parts: an error packet of 6 or 7 bytes panics; without the 4.1 marker the first character of the message is lost."
 },
 "C24": {
  "note": "Regular expressions replaced by what they match (ASCII case folding). Refuted part: a literal in front of the table can be taken for it."
 },
 "C25": {
  "note": "net.IP.String of other than four bytes is a parameter. Refuted parts: second address lost, invented address, pointers over TCP."
 },
 "C26": {
  "note": "Refuted parts: a Dubbo JSON line of one character panics; a null Dubbo service version loses the method; Kafka requests without a client id are refused; tagged fields of Kafka flexible headers are not skipped; Kafka error codes never mark an error. json.Unmarshal is an arbitrary function."
 },
 "C55": {
  "note": "Label-by-label specification of single, multi-request and failed-connect records over any group the pool can hand out. Refuted parts: a static dubbo port with a request shorter than sixteen bytes panics; two DNS queries with the same id and name on one connection are both paired with the first. Requests past the tenth of one pair get no record (C55_kept)."
 },
 "C39": {
  "note": "Exact for histories in which a service is added while no deletion waits and selects no pod another service selects (C39_exact); addresses and node ports: C39_address*. Refuted parts: deleting one of two services clears the pod's attribution, an address reassigned in the grace period, shared addresses, node ports on nodes learned later."
 },
 "C40": {
  "note": "Exactness holds while a workload has at most one pod (C40_exact). Refuted beyond that: deleting one of two pods of a workload, a pod on another node, or the predecessor of a replaced pod removes the workload of a live pod; two kinds of one name share an entry; a replica set learned late leaves a stale entry."
 },
 "C37": {
  "note": "Sequential histories of watch events, with the deletion queue; C37_conc_*: the locking of the address maps (operations on one address that overlap can lose an addition). Refuted parts: pods recreated under their name, regained or shared addresses, lost address within the grace period."
 },
 "C43": {
  "note": "Exact tables for client, server and tcp groups (C43_client, C43_server, C43_tcp), consistency of the two ends (C43_source, C43_destination), ports (C43_one_port), frame and no failure (C43_others_kept), and the combination with C37 and C39 (C43_live_*, C43_service_destination). Refuted: C43_tcp_host_port_refuted, C43_loopback_refuted. The caches are those of one moment; the types of the labels are those every producer writes.",
  "status": "proved"
 },
 "C44": {
  "note": "Full model of the ten label converters and their pools, over every history of conversions, frees and pool drops. Found false of the code, with theorems: Redis spans (both payloads under one name; in list form the response payload overwrites the alphabetically first label), custom labels named like exported ones, map-form spans with a missing metric (stale value), histogram in the place of a time (panic)."
 },
 "C45": {
  "note": "The colours are stated on the labels of the exported trace metric, for every history of the adapter."
 },
 "C30": {
  "note": "Proved for every history of puts, sends, exits, checks, starts and stops, for even ring sizes and timestamps that do not wrap. Refuted: an event ending exactly one ring length after the base loses its last second (endOffset > n instead of >=); with an odd ring size events land in segments labelled with another second."
 },
 "C31": {
  "note": "C31_window gives the whole output of a send; C31_records restates it segment by segment. Go's map order over threads is the order of the association list, so the theorem says 'some order'. C31_ticks gives the union of the windows of a trigger's ticks. Refuted: a trigger that starts before the edge window's width wraps and sends nothing."
 },
 "C32": {
  "note": "For a clock that does not go back. Refuted: data of a reused thread id is removed with the exited thread; an event delivered after the removal leaves data that no check removes."
 },
 "C57": {
  "note": "Sampling map as a step machine over starts, stops, traces and ticks; the state after every history equals a function of the history. Finding: URL and pid are joined without a separator, so a trace can be masked by one of another process (C57_masked_refuted). Channels never fill up in the model."
 },
 "C58": {
  "note": "Findings: trace id and pid joined without a separator (C58_collision_refuted); an exit stamped before its entry wraps (C58_backwards_refuted); a second entry is removed when the first expires (C58_reentry_refuted); after one profiling stop entries are never removed again (C58_never_cleaned)."
 },
 "C59": {
  "note": "The JSON text of an event is a parameter. Transaction events use the first attribute of a key, the others the last."
 },
 "C33": {
  "note": "ConnectSpec.v follows one connection through the events that name it. Found: an attempt for which no system call event was seen (process id 0) is never given up by a scan, and keeps its start for a later attempt from the same port (two refuted theorems). Attempts with source port 0 are excluded: the event path drops their report while the scan does not. A given-up attempt is reported with error number 0."
 },
 "C60": {
  "note": "IPv4 tables; the text of a 16-byte address is a parameter. Reading errors of the file system other than a missing file are not modelled."
 },
 "C46": {
  "note": "Found: when daylight saving ends, two requests exactly an hour apart get the same file and the later overwrites the earlier; a protocol with an underscore (possible for agents' traces) can make names collide. Paths are pairs of names; the storage path and failures other than an uncreatable file are not modelled."
 },
 "C47": {
  "note": "Removals happen at any later moment, in any order. Modification times are read in one step. Found: limit 1 panics on the second trace; limits 2 and 3 remove even the newest file."
 },
 "C48": {
  "note": "PromModel.v models sanitize rune by rune, with Unicode letters and digits beyond ASCII as parameters. C48_valid and C48_label_mode: the result is a valid name (hypothesis: ASCII; in the mode used for metric names, not a lone symbol). C48_unchanged, C48_characters. Findings: C48_single_symbol_refuted (panic on a one-symbol name), C48_other_letters_refuted, C48_distinct_names_refuted."
 },
 "C61": {
  "note": "C61_scrape composes the cumulative aggregator (C05), the kinds of newCollector and Collect; C61_labels and C61_distinct relate a series' labels to the recorded results; C61_exact: float64 is exact up to 2^53; C61_no_panic. Hypothesis sameMetrics: results with the same labels carry the same metrics. Findings: C61_shared_labels_refuted (the exporter drops the group name, so TCP round-trip time, retransmits and packet loss of one connection share a series and only the first recorded kind is ever shown), C61_one_sample_per_label_set_refuted (a label that is a number in one result and text in another gives two identical label sets). The registry and HTTP handler of the client library are not modelled."
 },
 "C49": {
  "note": "C49_routing gives the exact list of receivers for every set of analyzers; C49_once is the English claim under the stated side conditions; C49_two_catch_all_refuted shows the defect of NewManager with two catch-all analyzers.",
  "status": "proved"
 },
 "C51": {
  "note": "Counters are int64 and modelled with wrap-around; the theorems assume fewer than 2^63 events. C51_dashed_name_refuted: a subscription whose event name itself has a dash is counted under the wrong name.",
  "status": "proved"
 },
 "C52": {
  "note": "C52_panic characterises the only failure: a request_io or response_io metric that is a histogram (never produced upstream of this processor in the shipped pipeline).",
  "status": "proved"
 },
 "C50": {
  "note": "Every request and every step of the timer goroutines is one step of the machine (Start and Stop hold the module's mutex). Refuted side claims: stale timer and late goroutine stop a later session, a failed start leaves the module running, a module created started panics on stop, a file watch option panics.",
  "status": "proved"
 },
 "C53": {
  "note": "Proved per kind of object for every schedule of handlers, broadcasts and clients. Refuted and recorded: a late deletion (DeletedFinalStateUnknown) is lost at the client; events of different kinds may arrive in another order than they were handled, so a pod can get another workload at the client; a stale timer tick drops a healthy client that stays connected and hears nothing more. The services map, which registration does not lock, is out of the claim.",
  "status": "proved"
 },
 "C62": {
  "note": "Proved for every event with the four coordinates in unsigned attributes of any width. Refuted beside it: an attribute shorter than its type panics, and an address given as a signed value is read as 0.0.0.0."
 },
 "C63": {
  "note": "End to end over analyzer, enrichment and aggregator; sums are in 64-bit arithmetic. Events are processed one at a time; concurrent aggregation is the subject of C16 and AggConcProps."
 },
 "C64": {
  "note": "The loop's reads are inputs, with the answer of the throttle (C65). Finding: a batch with an error message is dropped as a whole, so an error beside the end of the table keeps the loader waiting (C64_error_beside_refuted)."
 },
 "C65": {
  "note": "Floating point rounding is not modelled (exact fractions, truncation kept). Findings: an excess of up to 4 messages per second is never noticed (C65_slight_excess_refuted); a negative limit other than -1 panics (C65_negative_limit_refuted)."
 },
 "C66": {
  "note": "Refuted: the snapshot walks the services without their lock, a published container's host port map is written without a lock, loading takes no lock for the host ports and workloads, a client that does not read its snapshot stops the provider. Fields of records (the service of a pod) are not tracked. Since C79 the calls of the goroutines include those of the profiling analyzer, so the theorems here hold beside them too."
 },
 "C67": {
  "note": "Refuted: the host network flag is lost (undeclared ports of a node's address are answered), pods whose deletion waits are kept for ever, a deleted service stays with the client's pods, a later service does not reach the copies host ports are answered with, a pod without a container id keeps its old address, the workload of a service does not reach service addresses. JSON text itself is not modelled."
 },
 "C68": {
  "note": "Hypotheses: custom labels are texts with names of their own, the trace metric is a gauge or unconfigured (otherwise C68_trace_counter_refuted), label integers are int64, a Redis request is not exported as a span (C44). Refuted: a second collection sees no gauge values, a restart loses pending ones, round-trip times that differ in the translated address merge, other gauges export nothing, histograms are dropped, three labels of the trace gauge are always empty. The SDK itself is not modelled."
 },
 "C69": {
  "note": "Hypotheses: the shipped aggregation map, custom labels that are texts with names of their own, groups shaped as their analyzers make them, ports of the caches are int32 values, Redis is not exported as a span (C44), fewer than 2^60 steps; amounts modulo 2^64. C69_all_delivered shows that the empty queue is reached from every history. Refuted: the code of a Dubbo answer and the error of a Redis answer are not kept by the aggregation. The analyzers' own side is C14, C33, C55, C62 and C63."
 },
 "C70": {
  "note": "Hypotheses: Go's integer types, groups from the pool are cleared (C08), every pair handed over gave one record (C70_one_record says when not: DNS over TCP, an HTTP 100 Continue, an unanswered MySQL quit), Redis is not exported as a span (C44); amounts modulo 2^64. Events and scans one at a time (the interleavings are C15). UDP DNS is not part of it."
 },
 "C71": {
  "note": "The full claim (any event, shipped configuration) is false: C71_short_mysql_error_stops_refuted, C71_empty_messages_stop_refuted; with Dubbo also C71_dubbo_json_stops_refuted, C71_dubbo_port_stops_refuted. Proved: C71_goes_on for any parsers and least length, C71_shipped_configuration from eight bytes on, C71_without_mysql, C71_without_mysql_and_redis. Hypotheses: Go's types, an event has both addresses or none, its res attribute has eight bytes, pool groups are typed (C55_pool_typed). Events and scans one at a time; UDP DNS is C19."
 },
 "C72": {
  "note": "Refuted as findings: Shutdown hangs on a full channel, drops queued events, and does not wait for a loop that has not begun."
 },
 "C73": {
  "note": "Proved for restarts after the goroutines of the earlier session returned, and for routines that are waiting when the clock fires; false otherwise (five refutations). StartProfile and StopProfile are one step each; the trigger channel does not fill up."
 },
 "C74": {
  "note": "The counters are stated for any history of the analyzer and of the pipeline once the exporter's queue is empty, modulo 2^64. Counter kinds only. Three refutations: events left in the channel at Shutdown, short waits, no source port."
 },
 "C75": {
  "note": "The step of the ticker may be taken whenever the goroutine is idle. Assumed: the other groups do not carry the metric of the inventory, the metric is configured as a gauge (as shipped), and, for C75_sound, the caches come from the steady histories of C40. The inventory itself is C40, whose refutations apply."
 },
 "C76": {
  "note": "encoding/json is a parameter: the theorem asks that a line has no line feed, is read back, and that a part of the text of a snapshot is not read as a snapshot. Three refutations."
 },
 "C77": {
  "note": "The fields of the configuration that cannot stop the process are left out, and so is a file that cannot be read. The Shutdown of the receiver is one step here; whether it comes is C72. Nine refutations."
 },
 "C78": {
  "note": "A call is a pair of numbers; what its labels become is C59, which traces go this way C57. Three refutations."
 },
 "C79": {
  "note": "The locks inside the next consumers are not part of the machine, nor is the wait at a full channel (C78). Four refutations."
 },
 "C03": {
  "note": "Stated for one call at a time and for every interleaving of Aggregate calls with dumps. Refuted: the maximum of negative readings is 0, and under concurrency two last values of one export need not come from the same call. The timestamp of a series is not modelled under concurrency."
 },
 "C80": {
  "note": "Events and scans one at a time; their interleaving is C19's concurrent part. The record of a query whose id is used again on its socket before an answer is lost: C19_repeated_id_lost_refuted. One refutation."
 },
 "C81": {
  "note": "Indexed means handed to the client library; encoding, batching, retries and the network are not modelled. The size of the ring is even (C30_odd_refuted). One refutation."
 },
 "C82": {
  "note": "Handles are never reused numbers, close does not fail, sockets are left out. Five refutations, one for each thing that is not given back."
 },
 "C83": {
  "note": "Decoding of durations and of texts into numbers is a parameter; unknown keys are ignored as in the code. Four refutations."
 },
 "C84": {
  "note": "One call is one step; file rotation, time stamps and callers are left out. Three refutations."
 },
 "C85": {
  "note": "The texts of the context and of floating point numbers are parameters. One refutation: a value shorter than its type needs stops the collector only when debugging."
 },
 "C86": {
  "note": "Two refutations: shared metrics, and histogram slices shared by a clone. No code in the repository writes buckets in place today."
 },
 "C87": {
  "note": "One refutation: a Write that passed its test before the Close writes after it. The comment on Close promises more."
 },
 "C88": {
  "note": "Three refutations: added and updated pods are not trimmed, X-Forwarded-For is ignored, blanks hide addresses. Delivery of the messages is C67's and C76's."
 },
 "C89": {
  "note": "encoding/json is modelled from the documented behaviour of Go 1.20. The reader reads whole numbers and no white space, which is what is written. Two refutations: UnmarshalJSON of a label map refuses what MarshalJSON wrote; bytes that are no UTF-8 are merged."
 },
 "C90": {
  "note": "client-go and the environment are parameters (file loads, service account readable, client made). Two refutations: with the metadata provider IsInitSuccess is never set, so slow Java traces never name their pod; a failure of the first call is not reported by later ones."
 },
 "C91": {
  "note": "The same encoder and reader as C89. Segment.UnmarshalJSON looks up exact names only. One refutation: Segment.UnmarshalJSON stores the address of its loop variable for lock events and ignores spans, transactions and inner calls."
 },
 "C92": {
  "note": "A call is one step together with its counters; only the reads of a scrape are spread over time. One refutation: a tuple removed between the reads of a scrape is counted both as there and as removed."
 },
 "C93": {
  "note": "Numbers in a body are whole; float64 rounding and time.ParseDuration are arbitrary functions. Five refutations: process numbers beyond 32 bits, seconds, unreadable durations, the content type, a start with a file watch."
 }
}