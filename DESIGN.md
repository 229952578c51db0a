# A Rocq model of the Kindling collector

The subject is the Go collector of KindlingProject/kindling (`/repo/collector/pkg`), the part of the
project that turns kernel events into metrics and traces.  The C++ probe, the eBPF programs and the
front end are not modelled.

## Method

* One area of the code = four files in `rocq/theories`:
  `XModel.v` (definitions that follow the Go functions, each citing file and lines),
  `XSpec.v` (the specification, written without the model's helpers),
  `XProofs.v` (lemmas) and `XProps.v` (only property theorems, each closed by `exact`, with its
  non-vacuity `Example` and `Print Assumptions`).  Small areas merge Spec into Props.
* Go values: `string`/`[]byte` are `list Z` of bytes 0..255 (`bytes`); machine integers are `Z`, with an explicit
  `mod 2^64` (or a signed wrap) where overflow matters; maps are association lists or functions with
  explicit lookup/insert laws; a slice index out of range is the explicit result `Panic`, an `error` is `Err`.
* External calls (random numbers, clocks, the kernel conntrack table, protocol parsers given to the
  dispatcher, sub-module start/stop) are section variables that become universally quantified
  arguments of the theorems, or inputs of the step function.
* Goroutines are explicit-step machines; a schedule is a list of steps.
* Where the English property is false of the code, the counterexample is a theorem with suffix
  `_refuted`, and what does hold is proved with suffix `_partial` (or unconditionally under the exact
  condition).  The findings are listed below.

## Plan per property

| id | model | proof |
|----|-------|-------|
| C01 | GetLabelKeys/GetLabels as functions on selector lists and label maps, key = name/value/type list padded to 37 | round-trip and equality iff, induction on selectors |
| C02, C03 | recorder state (key -> metric name -> aggregate), Aggregate/Dump as steps | conservation invariant over operation lists; refinement to "list of values of the window"; under concurrency, what a value has taken and what the calls in progress still owe it is a permutation of the readings of its window |
| C04 | histogram add | induction on recorded values; under concurrency from the windows of C03 |
| C05 | cumulative map with expiry stamps, operations with a clock | refinement to the list of past records |
| C06 | isSampled/isAbnormal/Consume with the random draw as input | case analysis, decision table |
| C07, C08 | typed label map over an explicit heap (values are pointers updated in place) | frame lemmas, invariant over use/free histories |
| C09, C10 | attribute array, little-endian decoding, dotted text, and its reading by Go's net.ParseIP and by StringToUint32 (AddrModel.v) | induction; injectivity and uniqueness of decimal printing |
| C11 | length-prefixed splitting | round-trip by induction; totality |
| C12, C13 | event lists of a message pair | algebra mod 2^64; prefix invariant |
| C14, C16 | sequential network analyzer over (pid, fd) table | refinement to per-connection grouping of the event history; gauge invariant |
| C15 | two-thread step machine with checkSend | at-most-once invariant for all schedules; refutation of "nothing lost" |
| C17, C18 | per-port parser list, counters, parser tree walk | invariants over operation lists; first-match theorem |
| C19 | UDP cache operations | refinement to multiset of outstanding ids; leak refuted |
| C20-C27 | byte readers and protocol parsers on `list Z`, `Panic` explicit | reader specs, encoder/decoder round-trips, no-panic theorems, refutations where they panic |
| C28 | header lookup in priority order | case analysis and string lemmas |
| C29 | three clustering methods | invariant of the scan loop, idempotence, equivalence |
| C30-C32 | ring of segments, window query, exit queues | invariants over event lists |
| C33 | connection map and state machine table | invariants over event lists |
| C34, C35 | LRU + orphan list + clock | invariants over operation lists |
| C36 | attribute encoder, scanner and decoder | round-trip, bounds |
| C37-C40 | Kubernetes caches with delayed deletion | invariants, refutations |
| C41, C42 | list difference, id truncation | induction |
| C43 | kubernetes_processor.go as a function on label maps and the cache states of C37-C40 | every step adds a table of labels (`adds`); the tables compose; the queries are related to the watched objects by C37 and C39 |
| C44, C45 | the ten label converters of the exporters' adapters with their pools, as a world of conversions, frees and drops | pool invariant over every history; converter output equals the tables of AdapterSpec; distinctness of the finite dictionaries by vm_compute; refutations |
| C46, C47, C48 | file names, rotation, sanitiser | injectivity, list lemmas, refutations |
| C49-C51 | routing, module controller, statistics | invariants over operation lists |
| C52 | node metric processor | case analysis |
| C53 | list-and-watch interleavings | invariant over schedules |
| C54 | table of syscalls and roles | case analysis |
| C55 | records of the network analyzer on top of every parser model and the group pool | label-by-label specification, label ownership of each parser, pool invariant, refutations |
| C56 | owner references, replica set table, name of an unknown replica set's deployment | inductive specification `belongs` proved equivalent to the code over every history |
| C57, C58 | sampling map and Java trace map as step machines | invariant relating the state to a function of the reversed history; key injectivity by splitting off the trailing digits; refutations |
| C59 | attribute loops and the dispatch on the event name | fold invariant over attribute lists; encoder round-trip; exact panic condition |
| C60 | the reading of /proc/<pid>/net/tcp from its bytes | rendering of the kernel's line format as specification; split, hexadecimal and decimal round-trips by induction over the file |
| C61 | the Prometheus collector over the cumulative aggregator, with the client library's acceptance rules and float64 rounding | composition with C05 and C01: a scrape after any history shows the live series' expected values; totality by the same invariant |
| C62 | the TCP analyzer on event attributes and the connection tracker of C34 | attribute layout as specification (`carries`), case analysis, composition with C34 |
| C63 | analyzer, Kubernetes enrichment and aggregator composed | the run reduces to aggregator calls; conservation over label choices from C02 by summing over label sets; last value from C03 windows |
| C64 | the receive loop over reads, the tracker's histories on top of decoder (C36) and cache (C34) | the loop by induction over reads against an inductive list of batches; the tracker refines cache operations; composition with C34, C35, C36 |
| C65 | limiter, throttling and filter as a machine with one step per atomic operation of two goroutines; exact arithmetic for floats | simulation by an observer (specification automaton); consequences from the automaton alone |
| C66 | every function of the metadata cache as a program of lock operations and table accesses, the branches being parameters; any number of goroutines with the semantics of sync.RWMutex (a waiting writer blocks new readers) | a static order of the locks checked on every program; an invariant of all schedules; progress by the highest wanted lock; an exact step count; mutual exclusion from the guards |
| C67 | writing the tables as JSON (exported fields, pointers written out) and reading them back (a new record for every occurrence), SetupCache on top of the model of the caches (C37) | round trip by a compositional specification of the allocation; the invariant of C37 holds of the loaded state for the cluster with the network of its pods erased, and every step preserves it |
| C68 | the exporter as a machine over groups, collections and restarts whose output is the list of calls to the SDK; adapters and pools of C44, the aggregator of C03 for the gauges | invariant: pools reachable by adaptions and frees, cached instruments of the configured kind, every series of the gauge aggregator holds the last pending reading; sums by induction over the history |
| C69 | the stages of C43, C02, C06 and C68 composed: groups, ticks, deliveries (one queued group at a time) and collections as steps, output the calls of the SDK | simulation: every run is a run of the aggregator and a run of the exporter; conservation of C02 over label predicates, sums of C68, the exported tables read only labels the aggregation keeps |
| C70 | the TCP half of the network analyzer as one machine (NetModel.v: grouping, detection, parsing, records), feeding the pipeline of C69 | every pair handed over is a conversation of C14, its record measures the conversation (C12, C13, C55), sum over connections, then C69; the shipped parsers satisfy the hypothesis on labels (C70_shipped_parsers) |
| C71 | the machine of C70 (NetModel.v), where an index out of range or a nil pointer is Panic | invariant over the stored pairs (addresses, bytes, least lengths) and the parser cache, preserved by every event and scan; each parser is total from a least length on (C21, C22, C23, C25, C26); four histories that end in Panic are computed |
| C72 | the C struct with its pointers into memory, convertEvent, and the reading loop, the consuming loop and Shutdown as one step machine over channel, stop channel and wait group (RecvModel.v) | conversion against a relation between the two structs (exact, unique, panics exactly when unreadable); invariant that the probe's events are delivered ++ in hand ++ channel ++ rest of the batch; then C49 and C51; a measure bounds the steps after Shutdown, and the states of rest are classified |
| C73 | sampleSend and ReadTriggerEventChan of every session as one step machine (head of the loop, parked in select, ranging, between send and delete), StartProfile and StopProfile as steps; ticker, timer and routine of one task as another (ProfModel.v) | invariant over all histories with clean restarts: at most the newest goroutine of each kind lives, what may still be sent and what was sent have no trace twice; held traces stay held; every goroutine can return once profiling is off; the runs of a routine by induction over its history, then C31_ticks; counterexamples for busy goroutines and late routines |
| C74 | the goroutine of the connection analyzer with its channel, ticker and stop channel over the machine of C33 (ConnFlowModel.v), followed by the pipeline of C69 | refinement to C33's machine; per connection the attempts are a function of its own events and the scans, and what is handed over is a permutation of them (induction over the history with kstep_full); then C69_counters with the dues of a connection group worked out from C43_client; no panic by cases over the reads |
| C75 | the goroutine of the inventory (tick, hand-over one by one, stop) over the exporter machine of C68 and the caches of C40 (WorkFlowModel.v) | projection to a history of the exporter, C68_collection for the scrape, the readings of the gauge are the workloads handed over since the last collection (induction over the history); C40_sound for the caches; counterexample with two scrapes |
| C76 | the client's reading of lines, its dispatch of changes, the loop of attempts, the lines the provider writes (MpcModel.v); the text of JSON is a parameter | induction over the lines of a cut stream; the loop by its counter; counterexamples |
| C77 | the constructors in the order of buildPipeline with what can panic in them, the start of the analyzers, and main with its signals beside the control API and the connection analyzer (LifeModel.v); what other systems answer is input | equivalence with a list of conditions written separately (LifeSpec.v); invariant and rank over all interleavings of the stop; counterexamples |
| C78 | the reporting goroutines, the generations of traceChan with their contents, the readers of all sessions and the steps of StartProfile and StopProfile (CallModel.v) | counting of every call over all places; invariants of the live channel and the live reader; a decreasing weight; an abandoned full channel is stable under all futures |
| C79 | the functions of the profiling analyzer as lock programs in the same machine as C66 (LockModel.v), including the pod lookup under the lock of the Java traces | the static order and the invariant of C66, extended; counterexample schedules for what has no lock |
| C80 | UdpModel.v with the DNS parser of DnsModel.v in place of its parameters, and RecordModel.v for the record of each pair (DnsUdpModel.v) | composition: the parser finds an id exactly in DNS messages (C25 in both directions), the conversation of each socket and id is that of C19, the labels are those of C55 |
| C81 | the two exporters as functions from groups to documents (EsModel.v), fed by the profiling analyzer of CpuModel.v with the labels of FileModel.v | invariants over histories on the per-thread observer of CpuSpec.v: a second that was sent and not touched stays marked, and every marked second has a document with its present events |
| C82 | namespaces, threads, open handles and tables read as a state on which the functions act, with an oracle that says which system call fails (NsModel.v); the start-up with its timeout as a step machine | one relation between the state before and after each function that composes (nothing closed that was open, tables added, threads as they were), then induction over the processes, the handles and the restarts |
| C83 | the decoding of a tree of values into the configuration structures, with the schema and the defaults of each component as data (ConfModel.v) | induction over the fields of a section for the meaning of one option; composition with the start-up of C77 for the sections needed and with the sampling of C06 for the rates |
| C84 | the logger's two outputs and the selection as functions of the decoded configuration, calls as a list (LogModel.v) | induction over the calls, with the levels given by a small relation of their own |
| C85 | the text of an event with UTF-8 decoding as Go's regexp does it, and the receiver's delivery with the question to the log (EvtTextModel.v, on RouteModel.v, RecvModel.v and LogModel.v) | induction over characters, attributes and events; UTF-8 by a small encoder of its own |
| C86 | groups, metrics, values and slices as objects of a heap (GroupModel.v); labels are AttrModel.v's | a refinement from heap to values with an ownership invariant |
| C87 | the stream's channels, lock and sync.Once as a step machine of any number of goroutines (FlushModel.v) | an invariant over schedules; what is seen split at the step it was seen |
| C88 | the address of a request, the registered handlers, the messages and the counters (ProvModel.v, with AddrModel.v's addresses) | induction over histories; counterexamples |
| C89 | json.Marshal of data groups, and the content of a trace file (JsonModel.v); a reader of RFC 8259 and UTF-8 as the specification (JsonSpec.v) | round trip by induction on the reader's fuel, strings byte by byte; counterexamples |
| C90 | Connecting to Kubernetes, its options and its two callers (InitModel.v); what the environment and client-go answer is a parameter | options by induction (the last one given wins), cases; histories of calls by induction; counterexamples |
| C91 | The fields and tags of the five kinds of events, the group of a segment, Segment.UnmarshalJSON (SegJsonModel.v); the reader of C89 applied twice (JsonSpec.v) | what is written is UTF-8 by induction, then the round trip of C89 inside itself; counterexample |
| C92 | The counters beside the cache of C34, the statistics map and the metrics made of it, read at one or at several moments (CtStatModel.v); counts over the calls alone (CtStatSpec.v) | an invariant per call, by induction over histories: each call's effect on size + evictions + removals, and the mark of each tuple; counterexample |
| C93 | The HTTP side of the module of C50: decoding of the request and its options, the handler, the response writer, the calls of the native library and the timers armed (CtrlModel.v); what a body says, read member by member, and histories (CtrlSpec.v) | induction over the members of a body; case analysis over the operations with the JSON reader of C89; the invariant of C50 over histories; counterexamples |

Nothing in the list is dismissed as inexpressible.  What stays outside the models is named per file in
the section "Trusted base".

## Findings

What a user would expect and the code does not do.  Each is a theorem about a concrete history or
input, or for all of them; `tools/findings.py` writes this list from the comments before the theorems.

<!-- refuted: begin -->
* `C01_all_labels_key_total_refuted` (KeyProps.v): Finding: a group with more than 37 labels crashes the cumulative (Prometheus) aggregator.
* `C01_any_number_of_selectors_refuted` (KeyProps.v): Finding: selectors beyond the 37th are ignored, so label sets that differ there are merged.
* `C02_conserved_for_any_metrics_refuted` (AggProps.v): Without uniformity it fails: a metric that the first group of a window did not carry is dropped.
* `C03_last_of_one_call_under_concurrency_refuted` (AggWindow.v): Two "last" values of one export need not come from the same call: here every call carries the same number twice, and the dump shows two different ones.
* `C03_max_of_negatives_refuted` (AggProps.v): When all readings are negative the exported maximum is 0, which is none of them.
* `C04_any_histogram_accepted_refuted` (AggProps.v): A histogram whose buckets outnumber the configured bounds makes the aggregator panic.
* `C05_idle_series_not_exported_refuted` (AggProps.v): The collection that finds the series expired still exports it once: it dumps before it removes.
* `C06_error_type_traced_refuted` (SampleProps.v): A request whose only sign of failure is its error type (no slow or error flag) is never traced, whatever the rates.
* `C07_merge_independent_refuted` (AttrProps.v): Finding: Merge copies pointers, so a later UpdateAdd on the receiver changes the other map as well: independence does not hold for maps that took part in a Merge.
* `C08_recycled_has_no_stale_names_refuted` (PoolProps.v): Finding: a recycled group still lists the label names of its previous use (with zero values), so through GetValues, HasAttribute, Size or the string form it does not look fresh.
* `C09_short_value_panics_refuted` (EventProps.v): Finding: a value with fewer bytes than its declared type makes the reader panic; that is the only way it can.
* `C10_text_number_refuted` (AddrProps.v): It also gives numbers to texts that are no addresses, such as one with a part above 255.
* `C10_words_refuted` (AddrProps.v): The two words do not tell the families apart: an IPv4 address and an IPv6 address can have the same.
* `C11_trailing_empty_message_refuted` (EventProps.v): Finding: an empty message at the end is lost.
* `C15_connection_goes_dark_refuted` (PairConcProps.v): Finding. A request waits 120 s for its answer; the answer arrives just when the timeout goroutine has decided to hand the pair over. The request is reported as unanswered, the response puts the spent pair back into the map, and from then on nothing at all is reported for this process and descriptor, whatever events follow and however often the scan runs; the gauge and the map disagree as well.
* `C15_request_lost_refuted` (PairConcProps.v): Finding. A further request that is being merged into its pair while the timeout goroutine hands the pair over is lost: it is neither in a reported pair nor pending.
* `C16_gauge_drifts_refuted` (PairConcProps.v): Finding. With overlap the gauge no longer counts the pending connections: after the race above it is 0 with one connection in the map, and it stays one short from then on.
* `C18_new_protocol_shadowed_refuted` (DetectProps.v): Finding: a port that carried 50 unrecognised messages stops recognising new protocols: a plain HTTP request, which the configured HTTP parser accepts, is labelled "no protocol"; 4950 messages later it is recognised again.
* `C19_cache_never_removed_refuted` (UdpProps.v): After that the emptied cache stays in the monitor for good: its count never comes back to zero.
* `C19_overlap_loses_query_refuted` (UdpConcProps.v): Finding. A query can be lost for good: the scan times out the last waiting query and takes the empty cache out of the monitor after the event goroutine has looked that cache up for a new query. Whatever happens afterwards (any events that are not this very query, any number of scans), the new query is never reported.
* `C19_overlap_reports_twice_refuted` (UdpConcProps.v): Finding. A query can be reported twice, once answered and once unanswered: the answer arrives while the scan is looking at the query.
* `C19_repeated_id_lost_refuted` (UdpProps.v): A query that repeats an id still waiting takes the place of the earlier one, which is then never reported.
* `C20_compact_string_takes_next_byte_refuted` (ReaderProps.v): A compact string followed by exactly one more byte is read together with that byte.
* `C22_argument_wins_refuted` (RedisProps.v): Findings. An argument that is the name of a command is recorded instead of the command sent: "SET key get".
* `C22_binary_value_refuted` (RedisProps.v): A binary value that holds a carriage return makes a well-formed request unrecognised.
* `C22_reply_overwrites_refuted` (RedisProps.v): The reply's value overwrites the request's command: "GET key" answered with "time".
* `C23_short_error_panics_refuted` (MysqlProps.v): An error packet of six or seven bytes stops the process.
* `C23_unmarked_message_refuted` (MysqlProps.v): Before protocol 4.1 there is no marker: the message loses its first character.
* `C24_literal_before_table_refuted` (SqlProps.v): A literal in front of the table does matter.
* `C25_invented_address_refuted` (DnsProps.v): The bytes behind an address record can be taken for another address record.
* `C25_second_address_refuted` (DnsProps.v): Two address records: the loop moves over the first address twice, and the second one is lost.
* `C25_tcp_pointer_refuted` (DnsProps.v): Over TCP the pointers of a name count from the two bytes of length, not from the message: a name that uses one is misread.
* `C26_dubbo_json_short_line_panics_refuted` (DubboProps.v): A JSON line of one character stops the process.
* `C26_dubbo_null_version_refuted` (DubboProps.v): A call without a service version: Hessian writes null as the letter N, which is read as a string of 78 bytes, so the method is lost.
* `C26_kafka_error_unmarked_refuted` (KafkaProps.v): A failed produce request is not reported as an error.
* `C26_kafka_flexible_topic_refuted` (KafkaProps.v): The tagged fields of the flexible request header are not skipped: a current fetch request gets a mangled topic.
* `C26_kafka_nameless_client_refuted` (KafkaProps.v): A request whose client gives no name is not recognised.
* `C27_dubbo_short_payload_panics_refuted` (TextProps.v): What is false. A Dubbo payload shorter than its 16-byte header crashes the text conversion (this is reached when a port is configured as Dubbo and carries something else, see C55).
* `C27_http_text_printable_refuted` (TextProps.v): HTTP and Redis text keeps control characters.
* `C27_utf8_two_byte_kept_refuted` (TextProps.v): and a two-byte character such as "é" before an ASCII character cuts the text off.
* `C27_utf8_wellformed_refuted` (TextProps.v): The UTF-8 text need not be well-formed UTF-8,
* `C28_bad_skywalking_hides_refuted` (HttpProps.v): A SkyWalking header that cannot be decoded hides the trace of every other scheme.
* `C28_empty_header_hides_refuted` (HttpProps.v): Findings. An empty-valued header hides every header behind it.
* `C28_no_blank_refuted` (HttpProps.v): The blank behind the colon is optional in HTTP; without it the first byte of the value is lost.
* `C29_agrees_with_baseline_refuted` (UrlProps.v): Finding: with a space inside a segment they differ ("/a b" -> "/ab" against "/*").
* `C30_boundary_refuted` (CpuProps.v): An event that ends exactly one ring length after the base loses its last second, though that second is in the window later.
* `C30_odd_refuted` (CpuProps.v): With an odd ring size an event can be put in a segment labelled with another second.
* `C31_early_trigger_refuted` (CpuProps.v): A trigger whose start is before the width of the edge window sends nothing at all at its first tick.
* `C32_late_event_refuted` (CpuProps.v): An event delivered after the removal brings the thread back, and no later check removes it.
* `C32_reuse_refuted` (CpuProps.v): The data of a new thread that got the id of an exited one is removed with it.
* `C33_every_attempt_ends_refuted` (ConnectProps.v): An attempt of which no system call of the process was seen is never given up: every scan keeps it, however long ago it began.
* `C33_own_start_refuted` (ConnectProps.v): A later attempt from the same port is then reported as if it had begun with the first one.
* `C35_nat_test_total_refuted` (ConntrackProps.v): C35 (finding): a malformed message without a source address makes the NAT test dereference nil.
* `C36_no_overread_refuted` (NetlinkProps.v): C36 (finding): such a message does crash the decoder: a protocol-number attribute of length 4 (no data).
* `C37_conc_lost_addition_refuted` (K8sConcProps.v): The last port of an address deleted between the two halves of an addition: the addition goes to a map nobody finds any more.
* `C37_lost_address_refuted` (K8sProps.v): A pod that loses its address but keeps the address of its node goes on answering for its host ports.
* `C37_recreated_refuted` (K8sProps.v): A pod is deleted and created again under the same name within the grace period. The deletion, when it is due, removes the cached record of the new pod, so that the next update of the new pod gives nothing up: the container id it drops is answered for ever after.
* `C37_regained_address_refuted` (K8sProps.v): A pod whose address changes and changes back within the grace period: the delayed deletion removes the entries it has again.
* `C37_shared_address_refuted` (K8sProps.v): Two pods on the network of one node, without declared ports, share the entry of the node's address: when one ends the other is not found.
* `C38_deleted_refuted` (K8sNodeProps.v): A deleted node is still answered: the cache is keyed by address and the deletion goes by name.
* `C38_former_address_refuted` (K8sNodeProps.v): So is the former address of a node that changed it.
* `C39_later_node_refuted` (K8sServiceHist.v): The address of a node that joins after a service of type NodePort does not answer the service, that of an earlier node does.
* `C39_reassigned_address_refuted` (K8sServiceHist.v): A pod ends and another takes its address. A service that selects the first, added within the grace period, is given to the second.
* `C39_second_service_refuted` (K8sServiceHist.v): Two services select a pod. When the one it was attributed to is deleted the pod is left with the emptied record, not with the other service.
* `C39_shared_address_refuted` (K8sServiceHist.v): Two pods on the network of a node, without declared ports: the service that selects one is given to the other.
* `C40_late_replica_set_refuted` (K8sWorkloadHist.v): A replica set that is heard of after its pod: the name guessed from the replica set's stays in the inventory after the pod's end.
* `C40_remote_pod_refuted` (K8sWorkloadHist.v): The pod that ends may even have run on another node.
* `C40_replaced_pod_refuted` (K8sWorkloadHist.v): A pod replaced by another of its workload, never two at a time: the delayed deletion of the first removes the workload of the second.
* `C40_same_name_refuted` (K8sWorkloadHist.v): Two workloads of different kinds with one name share an entry: only the last is listed.
* `C40_second_pod_refuted` (K8sWorkloadHist.v): A workload with two pods on this node: when one ends the inventory loses the workload, though the other lives.
* `C43_loopback_refuted` (EnrichLive.v): A request over the loopback address by a process of the node that is in no container is labelled with this node, and marked as coming from outside the cluster.
* `C43_tcp_host_port_refuted` (EnrichLive.v): A tcp metric to a port of a node that belongs to a container names the pod, but with the mark for addresses outside the cluster instead of its namespace.
* `C44_custom_collision_refuted` (AdapterProps.v): A custom label with the name of an exported one appears beside it: the list carries the name twice and the custom value is lost.
* `C44_histogram_panics_refuted` (AdapterProps.v): A histogram in the place of a time makes the adapter panic.
* `C44_redis_span_refuted` (AdapterProps.v): The response payload of a Redis request replaces the label [comm] of its span, and the request payload is under neither name.
* `C44_stale_span_refuted` (AdapterProps.v): In the map form, a span without one of its metrics shows the value of an earlier span.
* `C46_daylight_saving_refuted` (FileProps.v): Not so when local time jumps back: two requests an hour apart on the day daylight saving ends share a name, and the later overwrites the earlier.
* `C46_underscore_refuted` (FileProps.v): Nor with an underscore in the protocol of an agent's trace.
* `C47_keeps_newest_refuted` (FileProps.v): With a limit of two or three even the newest files are removed.
* `C47_limit_one_refuted` (FileProps.v): With a limit of one the second trace of a process stops the collector.
* `C48_distinct_names_refuted` (PromProps.v): Different names can become the same one.
* `C48_other_letters_refuted` (PromProps.v): Letters beyond ASCII are kept, so the name is one Prometheus refuses.
* `C48_single_symbol_refuted` (PromProps.v): A name of one character that is neither a letter nor a digit makes the exporter index past the end of "_": the process panics.
* `C49_two_catch_all_refuted` (RouteProps.v): With two catch-all analyzers the first one misses every event somebody subscribed to.
* `C50_created_started_refuted` (ModuleProps.v): A module created started panics on its first stop: there is no channel to close.
* `C50_failed_start_runs_refuted` (ModuleProps.v): So a start can be answered with an error although the module, and with it every other sub-module, now runs.
* `C50_file_watch_refuted` (ModuleProps.v): A start that asks for the option file_watch panics: the option is not implemented.
* `C50_late_goroutine_refuted` (ModuleProps.v): ... and here the first session's goroutine only gets to run in the second session, so it waits for that session's end.
* `C50_stale_timer_refuted` (ModuleProps.v): Otherwise an automatic stop may end a later session: here the timer of the first session fires just as that session is stopped by hand, and its stop comes when the second one runs ...
* `C51_dashed_name_refuted` (RouteProps.v): ... but a name that has a dash itself is cut at it, so its events are counted as "other".
* `C53_cross_kind_refuted` (WatchProps.v): Events of different kinds can reach a client in another order than the provider handled them: here the provider knows the owner of the replica set before it handles its pod, and the client does not, so the two give the pod different workloads.
* `C53_late_deletion_refuted` (WatchProps.v): service.go:89-118, handler.go:45-53, unwrapper_handler.go:108-115: a deletion the provider learned of late reaches its handler as a DeletedFinalStateUnknown. The provider deletes the object in it, but sends it as it is, a JSON object with the fields Key and Obj; the client decodes this as a replica set, which has neither, and so deletes the object without a name.
* `C53_silent_client_refuted` (WatchProps.v): service.go:133-152: the timer is stopped at the end only and Reset does not empty its channel, so a tick left by one client can be read for the next, whose channel is free. That client is dropped; it stays connected, and hears of no later change.
* `C55_same_query_twice_refuted` (RecordProps.v): Two queries with the same id and name: the first is reported with both answers and the second as unanswered, i.e. an error.
* `C55_static_dubbo_panics_refuted` (RecordProps.v): A port configured as dubbo: a request the parser did not read, shorter than sixteen bytes, panics instead of giving a record.
* `C57_masked_refuted` (TriggerProps.v): Without the condition on URLs another process's trace can be masked: the URL and the process number are joined without a separator.
* `C58_backwards_refuted` (TriggerProps.v): An exit stamped before its entry signals a trace of about 584 years.
* `C58_collision_refuted` (TriggerProps.v): An exit can be paired with the entry of another process: trace id and process number are joined without a separator.
* `C58_reentry_refuted` (TriggerProps.v): A second entry of a trace is removed when the first would have expired, before its own time.
* `C61_one_sample_per_label_set_refuted` (PromScrapeProps.v): A label that is a number in one result and text in another gives two samples with the same name and labels in one scrape.
* `C61_shared_labels_refuted` (PromScrapeProps.v): The exporter forgets the group name, so results of different kinds about the same labels share one series, whose metrics are those of the first: once a round-trip time of a connection is known, its lost packets are never shown.
* `C62_short_attribute_refuted` (TcpProps.v): C62, finding: an attribute shorter than its type ends the analyzer with a panic.
* `C62_signed_address_refuted` (TcpProps.v): C62, finding: an address given with a signed type is read as 0.0.0.0.
* `C64_error_beside_refuted` (StreamProps.v): C64, finding: a connection in one batch with an error message is lost; an error message beside the end of the table keeps the loop waiting for an end that has passed.
* `C65_negative_limit_refuted` (BreakProps.v): C65, finding: any other negative limit than -1 ends in a panic at the first batch after the first tick, even an empty one.
* `C65_slight_excess_refuted` (BreakProps.v): C65, finding: four messages per second too many are never noticed, however long it goes on: the average is cut to a whole number each time.
* `C66_host_port_map_refuted` (LockProps.v): A container record is published with its first port, and the host port of the second port is then written into it outside every lock: a lookup by the first host port reads the same map (the same holds for a snapshot).
* `C66_load_refuted` (LockProps.v): Loading a snapshot takes neither the lock of the host ports nor that of the local workloads: a lookup in the host ports and the report of the workloads read the tables while they are replaced.
* `C66_services_snapshot_refuted` (LockProps.v): The snapshot walks the table of the services without its lock: when a service is added meanwhile, Go stops the metadata provider ("concurrent map iteration and map write").
* `C66_stalled_client_refuted` (LockProps.v): A snapshot is sent while all the locks are held. A client that does not read its snapshot stops the changes of the metadata and, behind the first change that waits, every other client: nothing can go on.
* `C67_deleted_service_refuted` (SnapProps.v): Each container of the snapshot has a copy of its pod's service: when the service is deleted the provider's pods lose it, the client's keep it.
* `C67_host_network_refuted` (SnapProps.v): The network a pod is on is not part of the snapshot: for a port of a node's address that nothing declares the provider answers with no pod, the client with a pod on the network of the node.
* `C67_later_service_refuted` (SnapProps.v): A service that appears after the snapshot does not reach the copy of the pod that host ports are answered with.
* `C67_no_container_refuted` (SnapProps.v): A pod of the snapshot that has no container id yet is not among the client's pods by name: the client does not give up the address it has when an update changes it, and does not forget it.
* `C67_pending_deletion_refuted` (SnapProps.v): The waiting deletions are not part of the snapshot: a pod that ended just before it is answered by the client for ever, while the provider (which has no grace period, service.go:94, but deletes every ten seconds) forgets it in its next round.
* `C67_service_workload_refuted` (SnapProps.v): The workload an exported service belongs to: a pod that appears after the snapshot does not tell the copy of its service that service addresses are answered with.
* `C68_any_gauge_refuted` (OtelProps.v): The kind "gauge" for any metric but three exports nothing.
* `C68_gauges_stay_refuted` (OtelProps.v): Collections do not see the same values: whatever was read before, a second collection observes nothing, so with two Prometheus servers each gauge value reaches one of them, and a gauge disappears from a server between readings.
* `C68_histograms_refuted` (OtelProps.v): Histograms are dropped, whatever their kind: the exporter can only measure numbers.
* `C68_restart_keeps_gauges_refuted` (OtelProps.v): The values read since the last collection are lost when the meter is replaced.
* `C68_rtt_apart_refuted` (OtelProps.v): Round-trip times of two connections that differ only in the translated address are one series: the aggregator keeps dnat_ip and dnat_port apart (C63), the gauge does not show them, and the first value is lost.
* `C68_trace_counter_refuted` (OtelProps.v): A trace metric configured as a counter is measured without a single label: every trace adds to one number.
* `C68_trace_node_ip_refuted` (OtelProps.v): Three labels of the trace gauge are always empty: the adapter never writes them.
* `C69_dubbo_code_refuted` (FlowProps.v): Full claim: the request counters of a server tell requests apart by the answer they got, as the tables of the exporter say ([fineServerT], C44). It is false for Dubbo: the code of the answer is not among the labels the requests are aggregated by, so a request answered with an error code (here 40) is counted under the code 0, and never under its own.
* `C69_redis_error_refuted` (FlowProps.v): It is false for Redis too: whether the answer is an error is decided by the type of the error, which is not among those labels either; a failed Redis request is counted as [noerror].
* `C71_dubbo_json_stops_refuted` (StopProps.v): With the Dubbo parser switched on, a JSON call with a line of one character does, on any port without a configured protocol.
* `C71_dubbo_port_stops_refuted` (StopProps.v): With a port configured as Dubbo, any request below sixteen bytes does, whether the parser is on or off.
* `C71_empty_messages_stop_refuted` (StopProps.v): So does a process that sends, on any TCP connection, two empty messages by one sendmmsg: the Redis parser reads the first byte of an empty payload.
* `C71_short_mysql_error_stops_refuted` (StopProps.v): With the shipped configuration, a MySQL server (or anything on its port) that answers a query with an error packet of six bytes stops the collector.
* `C72_late_loop_refuted` (RecvProps.v): A loop joins the wait group only when it runs: Shutdown can return before the consuming loop has begun, and events are delivered afterwards.
* `C72_shutdown_hangs_refuted` (RecvProps.v): Shutdown can wait for ever: the channel is full, the consuming loop sees the stop first, and the reading loop waits for room that nobody makes any more. For every capacity of the channel, whatever the event.
* `C72_shutdown_loses_refuted` (RecvProps.v): Events that were read and counted need not reach the analyzers: Shutdown leaves what is in the channel.
* `C73_lost_refuted` (ProfProps.v): A goroutine of the stopped session removes the waiting trace of the next session, which is never stored.
* `C73_more_refuted` (ProfProps.v): And a routine may run more often than configured: while its task takes longer than a second, the tick and the timer are both ready, and it may pick the tick.
* `C73_none_refuted` (ProfProps.v): Whatever the configured number of seconds, a routine that is late may end without having sent anything: the ticks it missed are dropped, and of the last one and the timer it may pick the timer.
* `C73_stale_refuted` (ProfProps.v): A trace of the stopped session is stored in the next one.
* `C73_twice_refuted` (ProfProps.v): A goroutine of a session that is busy while profiling is switched off and on again reads the new session's stop channel and lives on: with two goroutines sampling, one trace is stored twice.
* `C74_drained_refuted` (ConnFlowProps.v): "Every event given to the analyzer is analysed" is false: what waits in the channel when Shutdown is called stays there.
* `C74_no_port_refuted` (ConnFlowProps.v): "A decided attempt is reported, whatever its source port" is false when an event decides it: without a source port it is dropped, with its end forgotten.
* `C74_short_wait_refuted` (ConnFlowProps.v): "The analyzer starts with any positive wait_event_second" is false: the goroutine panics, and the process with it, for 1 and 2 seconds, because the period of its scans is a third of it in whole seconds.
* `C75_every_scrape_refuted` (WorkFlowProps.v): "Every scrape shows the inventory" is false: of two scrapes between two ticks the second shows none of it, though the pods are still there.
* `C76_slows_down_refuted` (MpcProps.v): Nothing slows the collector down when its connections end: a provider that sends the snapshot and closes is asked for it again and again, without a pause.
* `C76_three_times_refuted` (MpcProps.v): "It retries after 1 minute when it failed three times" (the message of initk8s.go:130) is false: after a connection two failures are enough.
* `C76_unknown_operation_refuted` (MpcProps.v): "No line of the stream stops the collector" is false: one that names a known kind of object and an operation the collector does not know does (a provider of another version), though a line of an unknown kind, or one that is no JSON, is skipped.
* `C77_api_disabled_refuted` (LifeProps.v): Switching the control API off leaves it on: a collector with [enable: false] serves requests just as one with [enable: true].
* `C77_early_signal_refuted` (LifeProps.v): While the collector is still starting, which takes at least the four seconds its receiver sleeps, a signal ends the process on the spot: no component is shut down.
* `C77_further_signals_refuted` (LifeProps.v): A further signal does not help when the Shutdown of the receiver does not return (C72 shows that it may not): however many come, main is where it was.
* `C77_long_period_refuted` (LifeProps.v): A very long period is a negative one: an interval of 300 years for the aggregation stops the start.
* `C77_short_wait_refuted` (LifeProps.v): The seconds to wait for the events of a connection may be any positive number, as far as the configuration says; with 1 or 2 the collector stops with a panic right after it started, because a third of it, rounded down, is the period of a ticker.
* `C77_stop_race_refuted` (LifeProps.v): Shutting down while a request stops the profiling may panic: the request may come between the look at the flag and the stop, and the same channel is closed twice.
* `C77_timer_after_stop_refuted` (LifeProps.v): Nor does the module know that the analyzer's Shutdown stopped its session: when the session's timer fires after it, the process ends with a panic instead of code 0.
* `C77_unknown_storage_refuted` (LifeProps.v): A storage with an unknown name is accepted, and the first trace or profile then stops the collector.
* `C77_without_api_refuted` (LifeProps.v): Leaving out the section of the control API does not run the collector without that API: it does not start.
* `C78_reordered_refuted` (CallProps.v): After a stop and a start in quick succession two readers may be at work, and the calls of one goroutine, all reported in the session that is on, can change their order.
* `C78_stale_refuted` (CallProps.v): A call reported in one session can come into the rings of the next: the reader had it in hand when the profiling was stopped, or the goroutine that reports it had not yet looked at the channel.
* `C78_stuck_refuted` (CallProps.v): A stop of the profiling can leave the goroutine that reports a call waiting for ever, and with it all the requests it was to handle: the channel is full, the goroutine waits at it, and the reader takes the stop instead of a call. No later start helps, because it makes another channel.
* `C79_apm_table_refuted` (ShareProps.v): The table of the processes that have an APM agent is a plain map without a lock. A slow Java trace of one goroutine writes it while another goroutine, with a request of any process, reads or writes it; Go stops the collector for this ("concurrent map read and map write", "concurrent map writes").
* `C79_java_queue_refuted` (ShareProps.v): The queue of the Java traces to drop is appended to under one lock and looked at under another.
* `C79_marks_refuted` (ShareProps.v): Two traces of one process may be sent at once, and each marks the segments as sent, under the lock for readers only.
* `C79_switch_refuted` (ShareProps.v): Whether the profiling is on is read by every event and every signal outside the lock that a stop writes it under; a start writes it, and replaces the channel, the table and the sampled traces, under no lock.
* `C80_name_asked_for_refuted` (DnsUdpProps.v): An answer is matched by its id alone: one about another name takes the place of the answer, and the record shows that name.
* `C81_other_storage_refuted` (EsProps.v): A storage of any other name is accepted when the collector starts, and then the first group, whatever it is, crashes the collector.
* `C82_failed_dump_refuted` (NsProps.v): A dump that cannot start leaves the handles of all the namespaces open.
* `C82_handles_closed_refuted` (NsProps.v): The handles opened are not all closed: the one of the namespace to switch back to never is.
* `C82_left_running_refuted` (NsProps.v): A caller whose time was over leaves the set-up waiting for ever, and with it a tracker that runs, reads and fills its cache although nobody can use or stop it.
* `C82_limit_refuted` (NsProps.v): So no limit on open files is large enough for a collector that lives long.
* `C82_thread_back_refuted` (NsProps.v): A thread whose switch back fails is given back to the scheduler where it is: other goroutines then run in that namespace.
* `C83_missing_section_refuted` (ConfProps.v): A section that is left out does not have its defaults: without the section of the network analyzer nothing is parsed, no translation is looked up and no request times out; without the one of the Kubernetes processor no metadata is fetched; without the one of the receiver nothing is subscribed.
* `C83_missing_storage_refuted` (ConfProps.v): Without the camera exporter's section the collector comes up, and stops at the first thing there is to store
* `C83_names_refuted` (ConfProps.v): Custom labels, and the metrics of the aggregation tables, lose their capital letters: no file can name one with a capital letter.
* `C83_port_refuted` (ConfProps.v): False: a port number that is none is not refused: 80 + 2^32 silently becomes 80, and -1 becomes 4294967295.
* `C83_sampling_refuted` (ConfProps.v): A sampling_rate that gives only the rate of normal requests unsets the others, whose default is 100: then no slow and no failed request is traced.
* `C84_capitals_refuted` (LogProps.v): A level in capital letters is not the level it names: it is read as info, and the log is louder than asked.
* `C84_checked_refuted` (LogProps.v): A message above the debugging level that asks Check first is lost with the debugging messages of a component that is not selected.
* `C84_console_only_refuted` (LogProps.v): A file that asks for a log on the console only (no file_level, no file_rotation), or that has no section for the log, stops the collector at its start.
* `C85_debug_refuted` (EvtTextProps.v): False: an event with a number of too few bytes, delivered otherwise, ends the collector when the receiver's debugging messages are on, though no analyzer reads that number.
* `C86_buckets_refuted` (GroupProps.v): False for the buckets of a histogram: the clone's are the original's, so a bucket written through one is written in the other.
* `C86_shared_metric_refuted` (GroupProps.v): False once a metric of one group is added to another: resetting one group for the pool clears it in the other.
* `C87_after_close_refuted` (FlushProps.v): False for a Write that is under way: it can pass its test before the Close, and write to the connection after Close has returned.
* `C88_blank_refuted` (ProvProps.v): False for a list with blanks after its commas, as proxies write it: an address after a blank is not found.
* `C88_forwarded_refuted` (ProvProps.v): False for a client behind a proxy that says so the usual way, in X-Forwarded-For: it has the proxy's name.
* `C88_trim_refuted` (ProvProps.v): False for pods that are added or updated, although the handler has methods that would: they are told with all their parts.
* `C89_bytes_refuted` (JsonProps.v): False: labels with bytes that are not UTF-8 are not kept: different traces are stored as the same text.
* `C89_unmarshal_refuted` (JsonProps.v): False: labels do not survive as Go values: the label map's own UnmarshalJSON refuses what its MarshalJSON wrote, as soon as there is a label.
* `C90_java_refuted` (InitProps.v): False: it does so with a metadata provider too: what its client has learned is never asked, and the trace names no pod.
* `C90_retry_refuted` (InitProps.v): False: an error lasts: when the first call fails, every later call reports success, and nothing is watched.
* `C91_segment_refuted` (SegJsonProps.v): False: its lock events are read too: each of them becomes the last one; and spans, transactions and inner calls are dropped.
* `C92_balance_refuted` (CtStatProps.v): False: that the numbers of one scrape always fit together: the sizes are read under a lock and the counters after it, so a tuple removed in between is counted both as there and as removed.
* `C93_bad_duration_refuted` (CtrlProps.v): False: a duration that cannot be read is refused: the module is started, with code 1, and never stops by itself.
* `C93_process_refuted` (CtrlProps.v): False: the process attached is the one given: only the low 32 bits of its number are passed on, so asking for 4294967303 attaches to process 7.
* `C93_seconds_refuted` (CtrlProps.v): False: a number given as the duration counts seconds, as the comment beside the field says: asking for 60 stops the module after 60 nanoseconds.
* `C93_served_refuted` (CtrlProps.v): False: every request is answered: a start that asks for a file watch gets no answer at all.
* `C93_type_refuted` (CtrlProps.v): False: the answers say that they are JSON: the type is set after the status has been sent, and no answer of status 200 carries it.
<!-- refuted: end -->

Seen while reading, and not stated as a theorem:

* `isInstallApm` of the CPU analyzer is a plain map read and written by several goroutines.
* `JavaTraceSlowTime` is documented in seconds and compared in milliseconds; the numeric `Duration` of a
  profiling request is documented in seconds and taken as nanoseconds.
* `Segment.UnmarshalJSON` appends the address of the loop variable, so every element it decodes is the last one.
* The conntracker is built once (`sync.Once`): the first component that asks for it fixes its configuration.
* The metadata provider writes the snapshot to the client while it holds the read locks of every cache, and
  takes no lock for the map of services and the map of local workloads.
* `ScheduledTaskRoutine.Stop` (which nothing calls) waits for ever if the routine's timer fires between its
  compare-and-swap and its send; the gauge of routines may be decremented before it is incremented.
* The control API sets its content type after the header was written.
* With the metadata provider, `IsInitSuccess` is never set, so slow Java traces get no workload, pod or container.
* `Segment.UnmarshalJSON` reads back neither transaction ids, spans nor inner calls.
* When the stream from the metadata provider breaks, the client logs that it clears the cache, and clears nothing.
* `esexporter.Consume` with debugging messages on panics on a nil group, which it accepts with them off.
* A section of the logger with errors is reported with "default config will be used", and there is none.
* `Metric.Clone` shares the slices of a histogram with the original.
* The metadata provider trims a pod only when it is deleted: the handler it registers calls the promoted `AddObj` and
  `UpdateObj`, not its own `AddPod` and `UpdatePod`.
* `sampleSend` does not stop its ticker, so each profiling session leaves one behind; while the trigger channel is
  full it does not see the stop. A full trace channel blocks the network analyzer.
* File names of traces may exceed the 255 bytes a file system allows (long process or protocol names).

## Trusted base

* Coq 8.16.1: its kernel, including `vm_compute` (used in examples and refutations), and the compiler that
  built it.
* `Print Assumptions` stands under every property theorem and answers "Closed under the global context"
  for every one of them: no axiom, neither of ours nor of the standard library.  `vcheck` lists seven
  constants `Coq.ssr.ssrunder.Under_rel.*` as library axioms; they are the sealed module that the standard
  library's `ZifyBool` loads (it has its implementation behind a signature), and no theorem depends on them.
* The libraries used are the standard library's only (`List`, `ZArith`, `Lia`, `Bool`, `Permutation`, `Sorted`).
* The translation by hand from Go to Gallina.  Each definition cites the file and lines it follows and says
  what it leaves out.  Go's own semantics (maps, slices, defer, select, integer wrap, panics) are as the
  language specification has them; the memory model is taken to be sequentially consistent at the level of
  the steps each concurrent model names.
* What the kernel, the probe, the clock, the random source and Kubernetes deliver is input: the theorems
  quantify over it.

### What is modelled

All paths are below `/repo/collector/pkg`.

| Go | Model |
|---|---|
| aggregator/label_key.go | KeyModel |
| aggregator/defaultaggregator/*.go | AggModel, AggConcModel |
| compare/*.go, metadata/kubernetes/helper.go (TruncateContainerId) | CompareModel |
| component/analyzer/manager.go, component/receiver/cgoreceiver (dispatch and statistics) | RouteModel |
| tcpconnectanalyzer: the goroutine, its channel, ticker and Shutdown (analyzer.go; the consumers do not fail) | ConnFlowModel |
| metaprovider/client: ListAndWatch, apply, Apply; kubernetes: watchFromMPWithRetry; the lines the provider writes | MpcModel |
| ../cmd/kindling-collector/main.go, ../internal/application/application.go, component/controller/controller.go, analyzer/manager.go: StartAll, ShutdownAll, and the constructors of the components | LifeModel |
| k8sinfoanalyzer: the goroutine, the groups of workloads (pod_watch.go GetWorkloadDataGroup) | WorkFlowModel |
| cpuanalyzer: goroutines of a profiling session, routine of a trigger (module_control.go, send_trigger.go, scheduled_task.go; not the tid and Java clean-up goroutines) | ProfModel |
| component/receiver/cgoreceiver (conversion of the C events, reading and consuming loops, Shutdown; not the probe, the subscription calls, the capture statistics) | RecvModel |
| component/analyzer/network/network_analyzer.go, message_pair.go, udp_cache.go, metric.go, datagroup_pool.go | PairModel, PairConcModel, UdpModel, UdpConcModel, RecordModel, PoolModel |
| component/analyzer/network/protocol/** | MsgModel, FactoryModel, DetectModel, HttpModel, RedisModel, MysqlModel, SqlModel, DnsModel, KafkaModel, RocketModel, DubboModel |
| component/analyzer/tools/*.go | TextModel, HttpModel |
| component/analyzer/cpuanalyzer/*.go | CpuModel, TriggerModel, CpuDecodeModel |
| component/analyzer/tcpconnectanalyzer/** | ConnectModel, SocketModel |
| component/analyzer/tcpmetricanalyzer/tcp_analyzer.go | TcpModel |
| component/consumer/exporter/cameraexporter, filepathhelper | FileModel |
| component/consumer/exporter/otelexporter (consume.go, instrument.go, NewMeter) | OtelModel |
| pkg/component/analyzer/network/network_analyzer.go:437-552 (the analyzer as a whole, TCP) | NetModel |
| internal/application/application.go (wiring of the metric pipeline), aggregate_kind_map of collector/docker/kindling-collector-config.yml | FlowModel |
| component/consumer/exporter/prometheusexporter | PromModel, AggModel |
| component/consumer/exporter/tools/adapter | AdapterModel |
| component/consumer/processor/aggregateprocessor | SampleModel, AggModel |
| component/consumer/processor/k8sprocessor | EnrichModel |
| component/consumer/processor/nodemetricprocessor | RouteModel |
| component/controller/module.go, profile_module.go | ModuleModel |
| metadata/conntracker/internal/conntracker.go, conntrack.go, model.go, utils.go | ConntrackModel |
| metadata/conntracker/internal/consumer.go, message.go (without the namespaces and socket options) | StreamModel |
| metadata/conntracker/internal/circuit_breaker.go, bpf_sampler.go, consumer.go (throttle) | BreakModel |
| metadata/conntracker/internal/encoding.go, decoding.go, attribute_scanner.go, align.go, address.go | NetlinkModel |
| metadata/kubernetes/*.go (without the informer set-up) | K8sModel, K8sConcModel, LockModel, SnapModel |
| metadata/metaprovider/** (without HTTP and the JSON text) | WatchModel, SnapModel |
| model/attribute_map.go, data_group.go, metric.go | AttrModel, PoolModel |
| model/kindling_event.go (attributes), kindling_event_helper.go, event_converter.go | EventModel |
| urlclustering/*.go | UrlModel |
| internal/application/factory.go (the wiring of the TCP path) | PipeModel |

### What is not modelled

* The cgo conversion of `cgoreceiver.go` (C structs to Go events) and everything written in C or C++.
* Generated protobuf code, JSON and HTTP libraries, zap loggers, the OpenTelemetry SDK, the Kubernetes
  client's informers, netlink sockets (`socket.go`).
* `esexporter`, `esclient`, `logexporter`, `observability`, `component/telemetry.go`, `main.go`: glue around
  those libraries.
* Time outside the models that name it, memory limits, and garbage collection (`sync.Pool` may drop what it holds:
  the pool models allow either).
