{"id": "C01", "title": "Aggregation key identifies exactly the selected labels", "statement": "Two label sets passed to GetLabelKeys with the same selectors give equal keys exactly when they agree (after each selector's type formatting) on every selected label; converting the key back with GetLabels returns, for every selected label name, the value the original label set had for it, and no other label.", "quantifier": "every selector list with distinct names of at most 37 entries and every pair of label sets", "why_tests_cant": "Series are merged or split by key equality; a collision or a spurious split can sit at any combination of 37 label values.", "anchors": ["collector/pkg/aggregator/label_key.go: GetLabelKeys, GetLabels"]}
{"id": "C02", "title": "Aggregated counters lose nothing and count nothing twice", "statement": "For every metric configured as sum or count and every label key, provided the groups of one series carry the same metric names, the values exported by all Dump calls plus what a final Dump would export equal the sum (modulo 2^64) or number of the values fed to Aggregate for that key, no matter how Aggregate and Dump calls interleave.", "quantifier": "every sequence of Aggregate and Dump calls, every assignment of groups, keys and values", "why_tests_cant": "The loss would appear only for particular interleavings of recording and periodic dumping.", "anchors": ["collector/pkg/aggregator/defaultaggregator/default_aggregator.go: Aggregate, Dump", "collector/pkg/aggregator/defaultaggregator/value_recorder.go", "collector/pkg/aggregator/defaultaggregator/agg_values.go"]}
{"id": "C03", "title": "Max, last and average describe exactly the values of the window", "statement": "Between two dumps the value exported under kind max is the largest of zero and the recorded values, under last the most recently recorded value, and under avg the truncated quotient of the sum by the number of recorded values; a dump never exports a series for which nothing was recorded since the previous dump.", "quantifier": "every sequence of recorded values in a window, for every key", "why_tests_cant": "Depends on the whole history of values of the window.", "anchors": ["collector/pkg/aggregator/defaultaggregator/agg_values.go: maxValue, lastValue, avgValue"]}
{"id": "C04", "title": "Histogram buckets are cumulative counts", "statement": "After any list of recorded values, bucket i of a histogram metric is the number of recorded values not above boundary i, the total count is the number of recorded values and the sum is their sum; with sorted boundaries bucket counts never decrease along the boundaries and never exceed the total.", "quantifier": "every boundary list and every sequence of recorded values", "why_tests_cant": "A boundary mistake shows only for values equal to a boundary, at any position.", "anchors": ["collector/pkg/aggregator/defaultaggregator/agg_values.go: histogramValue"]}
{"id": "C05", "title": "Cumulative (Prometheus) series expire exactly when idle", "statement": "A series recorded in the cumulative aggregator is exported by every later collection up to the first one that finds it idle longer than the expiry duration, is not exported by any collection after that one until it is recorded again, and while it lives its sum equals the sum of everything recorded since it was (re)created.", "quantifier": "every sequence of record and collect operations with non-decreasing clock, every expiry duration", "why_tests_cant": "Expiry depends on the relative order and times of records and collections.", "anchors": ["collector/pkg/aggregator/defaultaggregator/cumulative_aggregator.go"]}
{"id": "C06", "title": "Abnormal requests are sampled, normal ones at the configured rate", "statement": "The aggregate processor forwards a single-request trace for a request marked slow or in error according to the per-kind sampling rates, never forwards a trace when the configured rate is 0, always when it is 100, and every request is also aggregated regardless of the sampling decision.", "quantifier": "every label combination, every configured sampling rate, every random draw", "why_tests_cant": "The decision is a function of several labels, configuration and a random number.", "anchors": ["collector/pkg/component/consumer/processor/aggregateprocessor/processor.go: Consume, isSampled, isAbnormal"]}
{"id": "C07", "title": "Label map operations", "statement": "Adding a label makes exactly that label read back as the added value and leaves the others unchanged; Merge makes the other map's labels win and keeps the rest; the UpdateAdd operations write the value whether or not the label existed with the same type; Clone yields an independent map with the same content.", "quantifier": "every label map and every sequence of operations", "why_tests_cant": "Must hold for every history of updates, including in-place updates through shared values.", "anchors": ["collector/pkg/model/attribute_map.go"]}
{"id": "C08", "title": "Recycled data groups read like fresh ones", "statement": "A data group taken from the network analyzer's pool after any number of earlier uses reads, through the typed getters, exactly as a freshly allocated one: every label reads as the zero value of its type and every metric as zero until written.", "quantifier": "every history of uses, frees and reuses of pooled data groups", "why_tests_cant": "Stale data leaks only for particular sequences of reuse between unrelated requests.", "anchors": ["collector/pkg/component/analyzer/network/datagroup_pool.go", "collector/pkg/model/attribute_map.go: ResetValues", "collector/pkg/model/data_group.go", "collector/pkg/model/metric.go: Clear"]}
{"id": "C09", "title": "Event user attributes read back as written", "statement": "Looking up a user attribute of an event returns the first attribute in use of that name; setting one replaces the value of that attribute, keeps its type and disturbs no other attribute (an attribute the event lacks is not added); integer attributes of every width and sign decode to the value they were encoded from.", "quantifier": "every event with up to 16 attributes, every attribute name and value", "why_tests_cant": "All sizes and byte patterns of attributes.", "anchors": ["collector/pkg/model/kindling_event_helper.go: GetUserAttribute, SetUserAttribute, GetUintValue, GetIntValue"]}
{"id": "C10", "title": "IPv4 addresses render and parse faithfully", "statement": "The dotted text produced for a 32-bit address determines the address, and the conntrack helpers' conversions between 32-bit integers and IP values are mutually inverse. The text is read back as that address, no other text with dots is read as an IPv4 address, and asking for the translation of a connection by text or by number gives the same answer. The reading of a text into a number and the split of an address into two words give the number and the address back. False: that the number of a text that is no address is 0; that the two words tell an IPv4 address from an IPv6 address.", "quantifier": "every 32-bit address, every text, every 16-byte address, every state of the tracker", "why_tests_cant": "2^32 addresses; a swapped byte order is visible only on asymmetric addresses.", "anchors": ["collector/pkg/model/kindling_event_helper.go: IPLong2String", "collector/pkg/metadata/conntracker/utils.go: int32ToIp, IPToUInt32, StringToUint32", "collector/pkg/metadata/conntracker/conntracker_linux.go: GetDNATTupleWithString, GetDNATTuple", "collector/pkg/metadata/conntracker/internal/address.go: AddressFromNetIP, V4Address, V6Address, ToLowHigh"]}
{"id": "C11", "title": "sendmmsg splitting preserves the messages", "statement": "Splitting the packed data of a sendmmsg event yields exactly the messages that were packed, in order, one event per message with that message as data and its length as result; data cut short yields the whole messages before the cut and at most a part of the next; malformed packed data never makes it read outside the buffer.", "quantifier": "every list of messages and every byte buffer", "why_tests_cant": "All message counts and lengths; malformed lengths.", "anchors": ["collector/pkg/model/event_converter.go: ConvertSendmmsg, splitDataBytes"]}
{"id": "C12", "title": "Request timing decomposition adds up", "statement": "For every completed request/response pair, sent time + waiting time + download time equals the reported total duration (64-bit arithmetic), and the reported total equals last response timestamp minus start of the first request event.", "quantifier": "every list of request and response events", "why_tests_cant": "Depends on number of events on both sides and on connect/latency values.", "anchors": ["collector/pkg/component/analyzer/network/message_pair.go: getSentTime, getWaitingTime, getDownloadTime, getDuration"]}
{"id": "C13", "title": "Merged payload is a bounded prefix of the bytes seen", "statement": "The payload kept for several consecutive reads/writes of one message is a prefix of the concatenation of their payloads, is never longer than the configured bound (or than the first payload), and the number of retained events stays bounded.", "quantifier": "every sequence of events merged into one message", "why_tests_cant": "Unbounded number and sizes of events.", "anchors": ["collector/pkg/component/analyzer/network/message_pair.go: mergeEvent, getAppendLength"]}
{"id": "C14", "title": "Every request is reported at most once, with its own response", "statement": "Processing events of a connection one at a time, each distributed record consists of a request and the responses that followed it on the same process and file descriptor before the next request; no event is used in two records and every request is eventually distributed or still pending.", "quantifier": "every sequence of request, response, connect and timeout events over any number of connections", "why_tests_cant": "Pairing depends on the whole event history of every connection.", "anchors": ["collector/pkg/component/analyzer/network/network_analyzer.go: processEvent, analyseRequest, analyseResponse, analyseConnect, consumerFdNoReusingTrace, distributeTraceMetric"]}
{"id": "C15", "title": "Concurrent timeout and event handling do not lose the connection", "statement": "When the timeout scan and the event thread work on the same connection concurrently, each pending pair is distributed exactly once and later requests on the same process and descriptor are still reported.", "quantifier": "every interleaving of the event thread's and the timeout thread's steps", "why_tests_cant": "The window is a few instructions wide.", "anchors": ["collector/pkg/component/analyzer/network/network_analyzer.go: analyseResponse, consumerFdNoReusingTrace, distributeTraceMetric", "collector/pkg/component/analyzer/network/message_pair.go: checkSend"]}
{"id": "C16", "title": "Pending-request gauge equals the number of pending pairs", "statement": "The self-metric counting pending pairs equals the number of stored pairs after every event processed sequentially.", "quantifier": "every event sequence", "why_tests_cant": "A drift accumulates over histories.", "anchors": ["collector/pkg/component/analyzer/network/network_analyzer.go: recordMessagePairSize"]}
{"id": "C17", "title": "Protocol cache per port stays duplicate-free with the generic parser last", "statement": "Whatever sequence of cache additions and removals happens for a port, the parser list tried for it holds exactly the protocols added and not removed since, each at most once, in the order of addition, and the generic parser, when present, is the last one tried.", "quantifier": "every sequence of additions and removals", "why_tests_cant": "Order of additions/removals is driven by traffic.", "anchors": ["collector/pkg/component/analyzer/network/protocol/factory/factory.go: AddCachedParser, RemoveCachedParser, GetCachedParsersByPort"]}
{"id": "C18", "title": "Protocol detection is decided by the tried parsers in order", "statement": "A request is labelled with the first protocol whose parser accepts it, trying the protocols remembered for the port and then the configured ones; a protocol is remembered for a port exactly from its 50th detection there, and the generic protocol is forgotten again at every 5000th; ports with a configured protocol always get that protocol.", "quantifier": "every parser behaviour and every sequence of requests", "why_tests_cant": "Thresholds are crossed only by long histories.", "anchors": ["collector/pkg/component/analyzer/network/network_analyzer.go: parseProtocols, parseProtocol", "collector/pkg/component/analyzer/network/protocol/protocol_parser.go: AddPortCount, ResetPort"]}
{"id": "C19", "title": "UDP DNS requests are matched by their own id", "statement": "A UDP DNS response is paired only with a request of the same process, descriptor and DNS id, every request is consumed by at most one response, and a request without response is eventually reported as unanswered.", "quantifier": "every sequence of UDP DNS requests, responses and expirations", "why_tests_cant": "Matching depends on the history of identical ids.", "anchors": ["collector/pkg/component/analyzer/network/udp_cache.go"]}
{"id": "C20", "title": "Byte readers stay inside the message", "statement": "Every integer, string, array and varint reader of the protocol layer returns the value encoded at the offset and the advanced offset, or an error; a string cut off by the end of the captured payload yields its captured part; no reader reads outside the payload or moves backwards on success.", "quantifier": "every payload and every offset", "why_tests_cant": "All truncations and length fields.", "anchors": ["collector/pkg/component/analyzer/network/protocol/protocol_parser.go: PayloadMessage readers"]}
{"id": "C21", "title": "HTTP request line and status are extracted exactly", "statement": "For a request payload of at least 14 bytes whose first line is METHOD SP URL (one of the eight known methods), the recorded method and url are exactly those; only such payloads (and a GET that lost its first byte) are recognised. For a response HTTP/1.x SP code SP, the recorded status is that number (0 when outside 99..999) and the error flag is set exactly when it is 400..999. No payload crashes the parsers.", "quantifier": "every method, url, status code and trailing content", "why_tests_cant": "All urls, lengths, missing delimiters and truncated payloads.", "anchors": ["collector/pkg/component/analyzer/network/protocol/http"]}
{"id": "C22", "title": "Redis messages: decoding is total and errors are reported", "statement": "A sequence of RESP request elements is recognised and its recorded command is the last bulk string naming a command, hence the command sent when no argument is itself a command name; a sequence of replies is recognised, sets the error flag exactly when it holds a non-empty error and records the first error's text; wrong bulk lengths and unknown keywords are rejected; every non-empty byte string is parsed to a verdict without reading outside it.", "quantifier": "every RESP value and every byte string", "why_tests_cant": "Nested arrays and malformed lengths of any depth.", "anchors": ["collector/pkg/component/analyzer/network/protocol/redis"]}
{"id": "C23", "title": "MySQL error packets are reported with code and message", "statement": "A MySQL error response of protocol 4.1 marks the exchange as an error and records exactly the transmitted code and the state and message text; no other response changes a label. A query or a statement to prepare that begins with one of the nine operations is recorded as sent, also behind an empty list of query attributes; quitting is recorded as needing no answer; nothing else is taken for a request. No request payload and no response payload of eight bytes or more crashes the parser; error packets of six or seven bytes do (refuted), and messages of older protocols lose a character (refuted).", "quantifier": "every payload", "why_tests_cant": "Short packets at any length.", "anchors": ["collector/pkg/component/analyzer/network/protocol/mysql"]}
{"id": "C24", "title": "SQL merging yields operation and table", "statement": "The content key of a SQL statement is the operation and the table name behind the first introducing word when that name is made of letters, underscores and minus signs; the operation and a star when there is none; and empty when no known operation opens the statement. It is the same for all statements that agree up to the end of the table name, whatever literals follow. A literal that holds an introducing word in front of the table is taken for the table (refuted).", "quantifier": "every statement", "why_tests_cant": "Infinite grammar of statements.", "anchors": ["collector/pkg/component/analyzer/network/protocol/mysql/tools/sql_merger.go"]}
{"id": "C25", "title": "DNS names decode and decoding always terminates", "statement": "Every domain name of at most 254 octets reached through at most 126 pointers decodes to its dotted, escaped text and the offset behind it, nothing else decodes, different names give different texts, and decoding always ends without reading outside the payload. A DNS request is recorded with its id and first name; a response with id, name, response code and error state, and with the address when its only address record comes last; no payload crashes the parser. With several address records all but the first are lost or made up (refuted), and over TCP pointers are misread by two bytes (refuted).", "quantifier": "every message, every offset", "why_tests_cant": "Pointer loops and truncated labels.", "anchors": ["collector/pkg/component/analyzer/network/protocol/dns"]}
{"id": "C26", "title": "Kafka, RocketMQ and Dubbo parsers never crash the agent", "statement": "Kafka, RocketMQ and Dubbo payloads are labelled with what they carry: a Kafka request with its kind, version, correlation id and (fetch and produce, non-flexible versions) first topic; a RocketMQ request with its kind, opaque number and topic; a Dubbo call with service#method. A Kafka or RocketMQ response is accepted only if it repeats the number of its request, and records the broker's code; a RocketMQ code above 0 or a Dubbo status above 20 marks the exchange as an error. Every payload gets a verdict without out-of-range access, except a Dubbo JSON call with a one-character line.", "quantifier": "every payload", "why_tests_cant": "Untrusted bytes from any connection.", "anchors": ["collector/pkg/component/analyzer/network/protocol/kafka", "collector/pkg/component/analyzer/network/protocol/rocketmq", "collector/pkg/component/analyzer/network/protocol/dubbo"]}
{"id": "C27", "title": "Payload text sent to users is printable and bounded", "statement": "The text form of a payload has at most the configured length and maps printable ASCII to itself; for protocols rendered as ASCII it contains only printable characters; for protocols rendered as UTF-8 it is a prefix of the payload, and cutting a payload of well-formed characters never leaves a broken character when they are ASCII or three bytes long.", "quantifier": "every payload and length limit", "why_tests_cant": "All byte values and truncation positions.", "anchors": ["collector/pkg/component/analyzer/tools", "collector/pkg/component/analyzer/network/protocol/protocol_parser.go: GetPayloadString"]}
{"id": "C28", "title": "APM trace ids are taken from the request headers", "statement": "In a message whose headers are 'Name: value' lines with non-empty values, the APM trace type and id are those of the first recognised header in priority order (SkyWalking, HarmonyCloud, Zipkin, Jaeger, W3C), absent when there is none; a response adds its trace only when the request had none.", "quantifier": "every header set", "why_tests_cant": "All header combinations and malformed values.", "anchors": ["collector/pkg/component/analyzer/tools/traceid_parser.go"]}
{"id": "C29", "title": "URL clustering keeps cardinality bounded and is stable", "statement": "The clustered form of a url contains no query part, every path segment of it is either '*' or at most 25 letters, underscores or hyphens, clustering a clustered url changes nothing, and the optimised implementation agrees with the baseline one on urls without white space.", "quantifier": "every byte string", "why_tests_cant": "All urls.", "anchors": ["collector/pkg/urlclustering/alphabet.go", "collector/pkg/urlclustering/noparam.go", "collector/pkg/urlclustering/blank.go"]}
{"id": "C30", "title": "CPU event ring: each event is found in the seconds it covers", "statement": "After any history, with an even ring size, the i-th segment kept for a thread describes second base+i and holds, per kind and in order of arrival, exactly the events received since the thread was last forgotten whose time range overlaps that second and which arrived when the second was within the ring; the base only moves forward, an arriving event that does not end before the base is stored in its first second still in the ring, an event within one second stays until its second is dropped, and the last half ring of seconds before an event's end survives its arrival.", "quantifier": "every sequence of events and every even ring size", "why_tests_cant": "Depends on the time pattern of all earlier events.", "anchors": ["collector/pkg/component/analyzer/cpuanalyzer/cpu_analyzer.go: PutEventToSegments"]}
{"id": "C31", "title": "A trace trigger emits exactly the segments of its window", "statement": "Sending CPU events for a process and time window emits exactly the non-empty stored segments of that process's threads whose second lies in the window, each once.", "quantifier": "every ring content and every window", "why_tests_cant": "All alignments of window and ring.", "anchors": ["collector/pkg/component/analyzer/cpuanalyzer/send_trigger.go: sendEvents"]}
{"id": "C32", "title": "Exited threads are removed after the grace period only", "statement": "The data of an exited thread is kept for the expiry delay and removed at the first check afterwards; threads that did not exit keep their data.", "quantifier": "every sequence of exits, checks and thread events", "why_tests_cant": "Depends on queue order, times and tid reuse.", "anchors": ["collector/pkg/component/analyzer/cpuanalyzer/delete_tid.go", "collector/pkg/component/analyzer/cpuanalyzer/delete_javatrace.go"]}
{"id": "C33", "title": "Each TCP connection attempt is reported once with the right outcome", "statement": "Every tracked connection attempt is reported at most once, as success only after an event showing establishment and as failure only after an error or expiry, with duration end minus start; after it is reported its entry is gone; connections still in progress are never reported.", "quantifier": "every sequence of connect, tcp_connect, set_state, send and scan events over any number of connections", "why_tests_cant": "Depends on the order of kernel events.", "anchors": ["collector/pkg/component/analyzer/tcpconnectanalyzer/internal"]}
{"id": "C34", "title": "Connection tracking cache answers with the registered translation", "statement": "After registering a NAT connection a lookup of its original tuple returns the translated tuple and vice versa until the entry is evicted, deleted or expires unused; the cache never exceeds its size; expired orphans and only those are removed; a looked-up entry no longer expires.", "quantifier": "every sequence of register, lookup, delete and compact operations", "why_tests_cant": "Interaction of LRU order, orphan list and time.", "anchors": ["collector/pkg/metadata/conntracker/internal/conntracker.go: conntrackCache"]}
{"id": "C35", "title": "Only real translations are stored and returned", "statement": "A connection whose reply tuple is the mirror of its original tuple is never stored, and the DNAT lookup never returns a translation that leaves the destination unchanged.", "quantifier": "every connection tuple pair", "why_tests_cant": "Any combination of address and port rewriting.", "anchors": ["collector/pkg/metadata/conntracker/internal/conntracker.go: IsNAT", "collector/pkg/metadata/conntracker/conntracker_linux.go"]}
{"id": "C36", "title": "Netlink conntrack messages round-trip", "statement": "Decoding the attribute encoding of a connection's tuples yields the same tuples; scanning any byte buffer terminates without reading past its end.", "quantifier": "every TCP or UDP tuple pair, every buffer", "why_tests_cant": "All addresses, ports and malformed attribute lengths.", "anchors": ["collector/pkg/metadata/conntracker/internal/encoding.go", "collector/pkg/metadata/conntracker/internal/decoding.go", "collector/pkg/metadata/conntracker/internal/attribute_scanner.go"]}
{"id": "C37", "title": "Pod metadata follows the watched pods", "statement": "After any sequence of pod add, update and delete events (with deletes processed after the grace period) a lookup by container id or by ip and port returns the metadata of the live pod that owns it and nothing for pods deleted longer than the grace period ago.", "quantifier": "every sequence of pod events", "why_tests_cant": "Re-created pods, changed ports and delayed deletions interact.", "anchors": ["collector/pkg/metadata/kubernetes/k8scache.go", "collector/pkg/metadata/kubernetes/pod_watch.go", "collector/pkg/metadata/kubernetes/pod_delete.go"]}
{"id": "C38", "title": "Node metadata follows the watched nodes", "statement": "After any sequence of node add, update and delete events a lookup by address returns the name of the live node with that address and nothing for deleted nodes.", "quantifier": "every sequence of node events", "why_tests_cant": "Staleness shows only after deletions.", "anchors": ["collector/pkg/metadata/kubernetes/node_watch.go"]}
{"id": "C39", "title": "Services select pods by labels", "statement": "A pod is attributed to a service of its namespace exactly when all the service's selector labels are present on the pod with equal values and the selector is not empty; the service is found by its address and ports, and by its node ports on every node known when it was added, until it is deleted.", "quantifier": "every label set and selector", "why_tests_cant": "All combinations of labels.", "anchors": ["collector/pkg/metadata/kubernetes/service_watch.go: GetServiceMatchLabels, SelectorsMatchLabels", "collector/pkg/metadata/kubernetes/pod_watch.go: getPodsMatchSelectors"]}
{"id": "C40", "title": "Workload inventory lists live workloads", "statement": "The exported workload inventory lists the workload of a local pod from the moment the pod is added; without waiting deletions everything listed belongs to a live local pod, nothing is listed twice, and a workload leaves the list only when a pod of it is removed. While each workload has at most one pod in the cache the list is exactly the workloads of the live local pods.", "quantifier": "every sequence of pod additions and deletions", "why_tests_cant": "Several pods of one workload deleted in any order.", "anchors": ["collector/pkg/metadata/kubernetes/pod_watch.go: workloadMap, localWorkloadMap"]}
{"id": "C41", "title": "Slice comparison returns the exact differences", "statement": "Comparing an old and a new list returns as removed exactly the old elements absent from the new list and as added exactly the new elements absent from the old list, in order.", "quantifier": "every pair of lists", "why_tests_cant": "All lengths and duplicates.", "anchors": ["collector/pkg/compare/int32_slice.go", "collector/pkg/compare/string_slice.go"]}
{"id": "C42", "title": "Container ids are normalised", "statement": "Truncating a container id returns the first twelve characters after the runtime prefix for every id of the form runtime://hex and the empty string when there is no prefix.", "quantifier": "every string", "why_tests_cant": "All lengths and prefixes.", "anchors": ["collector/pkg/metadata/kubernetes/pod_watch.go: TruncateContainerId"]}
{"id": "C43", "title": "Kubernetes enrichment labels source and destination consistently", "statement": "Switched off, the enrichment changes nothing. Switched on, for every state of the metadata caches and every label set whose labels have their usual types, it never fails, changes only the labels of the two ends, and adds exactly the labels of a decision table for the source and the destination. All labels of an end come from one cached pod, or from the service that was called, or no pod is named and the namespace is one of the two not-found marks. For tcp metrics the translated destination replaces the one called and at most one of the two ports survives, never one from 32768 on. After every history of the watches a request of a container of a live pod is labelled with this pod, and a request to a live pod's address or to the cluster address of a service with this pod or service. (Refuted for tcp metrics to a host port, whose pod gets the external mark, and for loopback requests of the node itself.)", "quantifier": "every label set and every metadata cache answer", "why_tests_cant": "Combinations of ports, NAT and cache hits.", "anchors": ["collector/pkg/component/consumer/processor/k8sprocessor/kubernetes_processor.go"]}
{"id": "C44", "title": "Exported label sets do not depend on what was exported before", "statement": "Every exported metric and span carries exactly the labels its kind calls for, computed from the data group alone, plus the custom labels of the configuration: the destination's identity for a server, both ends for a topology edge, addresses and containers when pod detail is on, request and response content by protocol, the translated destination when there is one. Reusing pooled label storage never leaks labels or values from an earlier data group; the list form is sorted by name and agrees with the map form. Holds for spans of every protocol but Redis, whose two payloads share a name; there every label but the payload and the alphabetically first one is right.", "quantifier": "every data group and every history of earlier conversions", "why_tests_cant": "Leaks depend on the order of conversions of different protocols.", "anchors": ["collector/pkg/component/consumer/exporter/tools/adapter/label_converter.go", "collector/pkg/component/consumer/exporter/tools/adapter/net_dict.go", "collector/pkg/component/consumer/exporter/tools/adapter/net_adapter.go"]}
{"id": "C45", "title": "Trace status colours follow the thresholds", "statement": "The status label of each request stage is green up to the lower threshold, red from the upper threshold and yellow in between.", "quantifier": "every 64-bit latency", "why_tests_cant": "Boundary values.", "anchors": ["collector/pkg/component/consumer/exporter/tools/adapter/net_dict.go: getRequestStatus, getSubStageStatus"]}
{"id": "C46", "title": "Trace files of different requests never overwrite each other", "statement": "Where local time keeps a fixed offset and names and protocols hold no underscore, two traces are written to the same file only if workload, pod, container, process, start time, protocol, content key and direction are all equal; the date in the name is the Gregorian date. CPU events sent for a trace are appended to the file of that trace, in order, and no operation on another trace changes it.", "quantifier": "every pair of traces", "why_tests_cant": "Collisions need particular encodings.", "anchors": ["collector/pkg/component/consumer/exporter/cameraexporter/filewriter.go: getFileName, pidFilePath", "collector/pkg/component/consumer/exporter/cameraexporter/datehelper.go", "collector/pkg/filepathhelper/filepath.go"]}
{"id": "C47", "title": "Trace file rotation bounds the directory and keeps the newest files", "statement": "With a limit of at least two, a full process directory loses its oldest files and keeps the newest, half the limit less one; below the limit nothing is removed; writing never fails; and the files not being removed never exceed the limit. (A limit of one stops the collector, and limits of two and three remove every file.)", "quantifier": "every directory content and every positive limit", "why_tests_cant": "Small limits and arbitrary file counts.", "anchors": ["collector/pkg/component/consumer/exporter/cameraexporter/filewriter.go: rotateFiles"]}
{"id": "C48", "title": "Metric names are sanitised for Prometheus", "statement": "Every non-empty metric name of ASCII characters is turned into one Prometheus accepts: letters, digits and underscores, not starting with a digit or a double underscore; letters and digits are kept, everything else becomes an underscore, and names that are valid already are unchanged. (Refuted at the edges: a one-character name that is neither a letter nor a digit makes the exporter panic; letters beyond ASCII are kept, and the metric is then dropped; different names can become the same.)", "quantifier": "every metric name", "why_tests_cant": "All names including one-character ones.", "anchors": ["collector/pkg/component/consumer/exporter/prometheusexporter/sanitize.go"]}
{"id": "C49", "title": "Events are routed to every interested analyzer once", "statement": "An event is delivered to exactly the analyzers that subscribed to its name plus the one that subscribed to all events, each once and in order, provided no analyzer lists a name twice and at most one analyzer subscribes to all events. With several catch-all analyzers only the last of them receives the events that somebody subscribed to by name (a defect, shown by a counterexample); events nobody subscribed to by name go to all of them.", "quantifier": "every set of analyzers and event names", "why_tests_cant": "Any number of catch-all analyzers.", "anchors": ["collector/pkg/component/analyzer/manager.go"]}
{"id": "C50", "title": "Profiling module start and stop alternate", "statement": "Whatever sequence of start, stop and timer requests arrives, the sub-modules are started and stopped strictly alternately, a start while running and a stop while stopped change nothing and return an error, and a module created stopped never panics. If the timer goroutines of a session finish before the next session starts, an automatic stop only ends the session it was armed for; otherwise it may end a later session (a defect, shown by counterexamples).", "quantifier": "every sequence and interleaving of control requests and timers", "why_tests_cant": "Races between timers and requests.", "anchors": ["collector/pkg/component/controller/module.go"]}
{"id": "C51", "title": "Received-event statistics count every event", "statement": "The per-name counters of received events sum to the number of events received, and unsubscribed names are counted as other.", "quantifier": "every subscription list and event sequence", "why_tests_cant": "All names.", "anchors": ["collector/pkg/component/receiver/cgoreceiver/self_metrics.go: dynamicStats"]}
{"id": "C52", "title": "Node traffic metrics conserve bytes", "statement": "For a request between two known nodes the node metrics carry exactly the request bytes from source to destination and the response bytes back; requests with an unknown node produce nothing.", "quantifier": "every data group", "why_tests_cant": "All combinations of present labels and metrics.", "anchors": ["collector/pkg/component/consumer/processor/nodemetricprocessor/node_metric_processor.go"]}
{"id": "C53", "title": "Metadata watchers miss no change", "statement": "For every interleaving of changes, broadcasts and client connections, and for each kind of object: a client of the metadata provider starts from a snapshot containing all changes up to some event (and possibly part of the next one) and is then sent every later event exactly once and in order, as long as it is connected and served; when everything was sent, its nodes and replica-set owners are the provider's. A client that is dropped because it is too slow notices it.", "quantifier": "every interleaving of changes and client registration", "why_tests_cant": "The window between snapshot and registration.", "anchors": ["collector/pkg/metadata/metaprovider/service/service.go: ListWithSemaphore, broadcast", "collector/pkg/metadata/metaprovider/service/handler.go"]}
{"id": "C54", "title": "Socket events are classified by role and direction", "statement": "A network event counts as a request exactly when the server side receives or the client side sends, as a response in the opposite cases, and events that are neither a read nor a write are reported as not being socket data.", "quantifier": "every event: all syscall names, both roles, all categories", "why_tests_cant": "The table of syscalls and roles must be complete and consistent; one wrong entry swaps requests and responses for that syscall only.", "anchors": ["collector/pkg/model/kindling_event_helper.go: IsRequest, isRequest"]}
{"id": "C55", "title": "A reported request says who talked, how long it took and whether it failed", "statement": "The record the network analyzer reports for a conversation carries the process, addresses and ports of the first request event, the translated destination where one is known, the labels of the protocol parser, the payload texts, the durations and byte counts; it is marked an error exactly when the parser found one or there is no answer, slow exactly when it was answered and took at least the threshold of its protocol, and never shows anything of the request that used the same memory before. On connections with several requests each answer is reported with the request it answers and every other request as unanswered. No parser writes a label of the analyzer, and taking a record never panics, whatever the payload, as long as it has a text.", "quantifier": "every pair of merged requests and responses, every payload, every parser, every configuration of thresholds, every group the pool can hand out", "why_tests_cant": "The record depends on what the recycled group held before and on labels written by eight parsers over arbitrary payloads; a stale or overwritten label only shows for particular sequences of requests.", "anchors": ["collector/pkg/component/analyzer/network/network_analyzer.go: getRecords, getRecordWithSinglePair, getConnectFailRecords, parseProtocol, parseMultipleRequests, isSlow, addProtocolPayload", "collector/pkg/component/analyzer/network/protocol/factory/factory.go: NewParserFactory", "collector/pkg/component/analyzer/network/config.go: getResponseSlowThreshold"]}
{"id": "C56", "title": "A pod's workload is its controller's", "statement": "A pod found in the cache carries the kind and name of what controls it: the controlling owner itself, or for a replica set what controls that replica set; for an unknown replica set called deployment-hash the deployment; built-in kinds are given without group and version.", "quantifier": "every history of replica set and pod events, every owner list and every name", "why_tests_cant": "Owner lists, names with any number of dashes and orders of the watches are unbounded.", "anchors": ["collector/pkg/metadata/kubernetes/pod_watch.go: getControllerKindName, extractDeploymentName", "collector/pkg/metadata/kubernetes/replicaset_watch.go: AddReplicaSet, UpdateReplicaSet, DeleteReplicaSet", "collector/pkg/metadata/kubernetes/helper.go: CompleteGVK, mapKey"]}
{"id": "C57", "title": "Every slow trace triggers the sending of its process's CPU events once", "statement": "While profiling is on, a slow trace reported by an APM agent, or seen at the server side of a process in which no agent trace was seen since profiling started, is kept until the next sampling tick; traces for the same URL and process share one slot, held by the first of them. At the tick each slot that has a duration gives exactly one trigger with the process, start and duration of its trace, and the slots are empty again; so every qualifying trace is represented by a trigger for its URL and process, provided URLs do not end in a digit. Client-side slow traces instead become inner calls of their thread, and nothing else does.", "quantifier": "every history of starts, stops, traces and ticks, every label and URL", "why_tests_cant": "Which trace represents a URL depends on every trace since the last tick and on the agent traces since the start.", "anchors": ["collector/pkg/component/analyzer/cpuanalyzer/send_trigger.go: ReceiveDataGroupAsSignal, sampleSend", "collector/pkg/component/analyzer/cpuanalyzer/module_control.go: StartProfile, StopProfile"]}
{"id": "C58", "title": "Java transactions are timed from their own entry", "statement": "An exit event of a Java transaction is paired with the last entry event of its trace id and process that has not been cleaned up, and signals a slow trace, with the process, URL, protocol, trace id, start and duration of the transaction, exactly when the time between the two is above the threshold; entry events signal nothing; an entry stays known until a check comes at least the expiration time after some event of its trace.", "quantifier": "every history of entry and exit events, cleaning checks and profiling stops, every threshold and expiration time", "why_tests_cant": "The pairing depends on the whole queue of earlier events and on when the checks ran.", "anchors": ["collector/pkg/component/analyzer/cpuanalyzer/cpu_analyzer.go: analyzerJavaTraceTime", "collector/pkg/component/analyzer/cpuanalyzer/delete_javatrace.go: JavaTraceDelete"]}
{"id": "C59", "title": "CPU, lock, span and transaction events are stored with the values the probe wrote", "statement": "A CPU event is stored with the start and end time, the two arrays of 64-bit numbers, the list of time types and the texts its attributes carry, the last attribute of a key counting; lock and span events with their start, decimal end time and texts; transaction events with the first attribute of each key; each in the ring of its own process and thread, with an exit event marking that thread and no other event having any effect. The analyzer panics on a CPU event exactly when a time attribute is shorter than its type or more attributes are announced than the event holds.", "quantifier": "every kernel event, every attribute list, every payload of numbers", "why_tests_cant": "Attribute lists, their order, their lengths and the numbers in them are unbounded.", "anchors": ["collector/pkg/component/analyzer/cpuanalyzer/cpu_analyzer.go: ConsumeEvent, ConsumeCpuEvent, ConsumeJavaFutexEvent, ConsumeSpanEvent, ConsumeTransactionIdEvent, ConsumeTraces", "collector/pkg/component/analyzer/cpuanalyzer/model.go: CpuEvent, JavaFutexEvent, ApmSpanEvent, InnerCall"]}
{"id": "C60", "title": "A scan finds the state of exactly the socket a connection event named", "statement": "From a process's TCP table as the kernel writes it, the collector reads for every connection, named by the addresses and ports a kernel event carries, the state of the last listed socket with the same four numbers, and finds no socket if none is listed. A single line that cannot be read makes the whole table count as unreadable, so that every attempt of that process is taken as given up.", "quantifier": "every table the kernel can write (IPv4), any number of sockets, every address, port and state; every file for the unreadable case", "why_tests_cant": "All 2^32 addresses and 2^16 ports must be decoded to the text the events use, in files of any length.", "anchors": ["collector/pkg/component/analyzer/tcpconnectanalyzer/internal/net_ip_socket.go: newNetIPSocket, parseIP, parseNetIPSocketLine", "collector/pkg/component/analyzer/tcpconnectanalyzer/internal/tcp_stat.go: NewPidTcpStat", "collector/pkg/component/analyzer/tcpconnectanalyzer/internal/connect_monitor.go: TrackTcpStateChange scan"]}
{"id": "C61", "title": "A Prometheus scrape shows each series' values", "statement": "With the Prometheus exporter, every scrape shows, for each label set that has a live series, one sample per metric of that series: the sum of everything recorded since the series was created (the last value for the TCP round-trip time, the cumulative bucket counts for the duration histograms), under the metric's Prometheus name, with exactly the labels of the recorded results and the time of the last one. Series with different labels have different label text unless a label changes kind. Values up to 2^53 are exact, and no history of results and scrapes makes the exporter panic (up to 37 labels, names that are not a lone symbol).", "quantifier": "every history of recorded results and scrapes, every label set, every value", "why_tests_cant": "The claim is about unbounded histories of recordings and scrapes over unboundedly many label sets; a test follows a few.", "anchors": ["collector/pkg/component/consumer/exporter/prometheusexporter/collector.go: Collect, recordMetricGroups, newCollector, getTimestamp", "collector/pkg/component/consumer/exporter/prometheusexporter/consume.go: exportMetric", "collector/pkg/aggregator/defaultaggregator/cumulative_aggregator.go"]}
{"id": "C62", "title": "What is reported for a TCP event", "statement": "For every kernel event of the four TCP kinds that names both ends of its connection, the TCP analyzer reports exactly one value with that connection's addresses, ports and translated destination: one lost packet for a drop, the number of segments (one if not given) for a retransmission, the round trip time if it is not zero. Every other event reports nothing. A connection the kernel redirects is labelled with the address and port it really goes to.", "quantifier": "all events, attribute layouts and lengths, addresses and ports, connection tracker histories", "why_tests_cant": "attribute order, widths and values, and the state of the connection tracker, are unbounded; tests try a handful of events", "anchors": ["collector/pkg/component/analyzer/tcpmetricanalyzer/tcp_analyzer.go: ConsumeEvent, generateRtt, generateRetransmit, generateDrop, getTupleLabels, findDNatTuple", "collector/pkg/metadata/conntracker/conntracker_linux.go: GetDNATTupleWithString"]}
{"id": "C63", "title": "TCP counters from kernel event to exporter", "statement": "Through analyzer, Kubernetes enrichment and aggregation with the default configuration, the packet losses and retransmitted segments handed to the exporter up to a tick add up to those the kernel events reported: in total, for every pod named as source at the time of each event, and for every other choice of labels. Each exported round trip time is the last one of its series since the previous tick, and every series with one is exported. No well-formed history makes the pipeline fail.", "quantifier": "all interleavings of events and ticks, all states of the Kubernetes caches and of the connection tracker at each event, all label choices", "why_tests_cant": "it is a statement about whole histories through three components with changing caches", "anchors": ["collector/internal/application/application.go: buildPipeline", "collector/pkg/component/analyzer/tcpmetricanalyzer/tcp_analyzer.go: ConsumeEvent", "collector/pkg/component/consumer/processor/k8sprocessor/kubernetes_processor.go: Consume", "collector/pkg/component/consumer/processor/aggregateprocessor/processor.go: Consume, runTicker", "collector/pkg/aggregator/defaultaggregator/default_aggregator.go: Aggregate, Dump"]}
{"id": "C64", "title": "Connections announced by the kernel are translated", "statement": "While the conntrack socket is open, exactly the batches of messages without an error message reach the translation cache, in order; the initial table is read up to the batch that ends it and no further. A translated TCP or UDP connection in such a batch, in IPv4 or IPv6 form, is found by a later lookup of its original addresses with the addresses and ports of its reply, unless it was announced again, deleted, expired unused, or displaced by too many others; one in the initial table does not expire.", "quantifier": "all sequences of reads, errors and batches of any content, all interleavings with lookups, deletions and compactions, all addresses and ports", "why_tests_cant": "it spans arbitrary message streams and histories, from bytes to lookups", "anchors": ["collector/pkg/metadata/conntracker/internal/consumer.go: receive, Events, DumpTable", "collector/pkg/metadata/conntracker/internal/message.go: checkMessage", "collector/pkg/metadata/conntracker/internal/conntracker.go: run, register, loadInitialState, GetTranslationForConn", "collector/pkg/metadata/conntracker/internal/decoding.go: DecodeAndReleaseEvent"]}
{"id": "C65", "title": "The limit on conntrack messages per second", "statement": "In every interleaving of the socket reader and the limiter's clock, every message is counted in exactly one measurement or cleared by a restart, the stream is throttled only when the running average exceeds the configured limit and once per time it does, each throttling lets through at most 0.95 of the previous share, and the tracker reports that it samples exactly when it has been throttled. Below the limit, and with limit -1, nothing is ever throttled; a sustained excess of 5 messages per second is.", "quantifier": "all interleavings of atomic steps of the two goroutines, all message counts, clock readings and limits", "why_tests_cant": "it is about every schedule of two goroutines sharing atomics and about unbounded running averages", "anchors": ["collector/pkg/metadata/conntracker/internal/circuit_breaker.go: Tick, update, Reset, IsOpen", "collector/pkg/metadata/conntracker/internal/consumer.go: throttle, initNetlinkSocket", "collector/pkg/metadata/conntracker/internal/bpf_sampler.go: GenerateBPFSampler", "collector/pkg/metadata/conntracker/internal/conntracker.go: IsSampling"]}
{"id": "C66", "title": "Users of the Kubernetes metadata never wait for each other for ever", "statement": "For any number of goroutines that look up, add, update and delete pods, services, nodes and replica sets, delete delayed entries, hand out snapshots and load snapshots, under any schedule: as long as the clients of snapshots take their data, some goroutine can always go on until all calls have returned, and every call returns after a fixed number of steps. The tables of the containers, of the service addresses, of the nodes, pods and replica sets and the queue of deletions are never read while they are written or written twice at once; a snapshot shows these tables at one moment and is loaded in one go. The host ports and local workloads are safe where no snapshot is loaded, the services where none is handed out either.", "quantifier": "all lists of calls with all branches they may take, all numbers of goroutines, all schedules", "why_tests_cant": "deadlocks and concurrent map accesses need particular interleavings of goroutines that a test run meets only by chance", "anchors": ["collector/pkg/metadata/kubernetes/initk8s.go: RLockMetadataCache, LockMetadataCache", "collector/pkg/metadata/kubernetes/k8scache.go: K8sMetaDataCache, SetupCache", "collector/pkg/metadata/kubernetes/pod_watch.go: AddPod, UpdatePod, DeletePod, podMap, workloadMap", "collector/pkg/metadata/kubernetes/pod_delete.go: podDeleteLoop, deletePodInfo", "collector/pkg/metadata/kubernetes/service_watch.go: AddService, UpdateService, DeleteService, ServiceMap", "collector/pkg/metadata/kubernetes/replicaset_watch.go: UpdateReplicaSet", "collector/pkg/metadata/metaprovider/service/service.go: ListWithSemaphore"]}
{"id": "C67", "title": "A client of the metadata provider answers like the provider, from its snapshot on", "statement": "Whatever the provider has cached when a client connects, the client that has loaded the snapshot knows of every container id, address and port, host port, service address, node and replica set what the provider knows (but whether a pod is on its node's network and whether a service is a NodePort service), and exports the workloads of the pods on its own node. If at that moment no deletion is waiting, no claim is disputed and every pod has a container id, then after every further history of events, by its own clock and with its own rounds of deletions, the client finds every live pod by everything it can be looked up by, with the right metadata and container, answers nothing with a pod that ended longer ago than its grace period, and once its deletions are done answers exactly with live pods that declare what was asked for or share its address.", "quantifier": "all states of the provider, all histories before and after the snapshot, all orders in which maps are ranged over, all clocks and grace periods", "why_tests_cant": "the snapshot replaces shared records by copies, and whether the copies stay consistent depends on every later event; tests compare one snapshot", "anchors": ["collector/pkg/metadata/metaprovider/service/service.go: list, ListWithSemaphore", "collector/pkg/metadata/metaprovider/client/client.go: ListAndWatch", "collector/pkg/metadata/kubernetes/k8scache.go: SetupCache, K8sPodInfo, K8sServiceInfo", "collector/pkg/metadata/kubernetes/pod_delete.go: podDeleteLoop"]}
{"id": "C68", "title": "The OpenTelemetry exporter measures every configured number once, under its labels, and gauges show the last value", "statement": "For every history of groups, collections and meter restarts the exporter never fails. A group leads to exactly one batch per exported result that has configured numbers: all of them, each with the instrument of its configured kind, under the labels of C44 and the custom labels, plus one span per result exported as a span. Consequently, for every counter or histogram metric and every label selector, the amounts measured add up to the amounts in the groups. A collection observes, for every gauge and every set of labels it shows, exactly one value: the last one read since the previous collection or restart.", "quantifier": "all histories of groups, collections and restarts, all configurations of metric kinds and adapters, all custom labels, all iteration orders of maps, all choices of recycled label sets", "why_tests_cant": "the labels come from recycled buffers, the gauges are drained by collections, so what one export shows depends on the whole history", "anchors": ["collector/pkg/component/consumer/exporter/otelexporter/consume.go: Consume, Export, exportMetric, exportTrace", "collector/pkg/component/consumer/exporter/otelexporter/instrument.go: getInstrument, createNewInstrument, recordLastValue, getSelector", "collector/pkg/component/consumer/exporter/otelexporter/otelexporter.go: NewExporter, NewMeter", "collector/pkg/component/consumer/exporter/tools/adapter"]}
{"id": "C69", "title": "The counters are conserved from the analyzers to the metrics SDK", "statement": "Whatever request, TCP and connection groups the analyzers hand over, in whatever order with ticks of the aggregation, deliveries of its groups and collections of the SDK, and whatever the Kubernetes caches hold at each of them, the pipeline (metadata, aggregation and sampling, exporter) never fails; and once a tick has happened and its groups are delivered, the SDK has been told, for each of the twelve counters and for every choice of labels, exactly the sum of what the groups are due under those labels: requests, their time and bytes by server and by edge, retransmissions, drops, connections and their time. In particular the request counter of a pod is the number of requests served by its containers.", "quantifier": "all histories of groups, ticks, deliveries and collections, all contents of the Kubernetes caches, all adapter switches, sampling rates and custom labels, all label selectors", "why_tests_cant": "the labels are added, selected, encoded into a key, decoded, renamed and merged by four stages whose state depends on the whole history; loss or double counting shows only for particular interleavings and label sets", "anchors": ["collector/internal/application/application.go: buildPipeline", "collector/pkg/component/consumer/processor/k8sprocessor/kubernetes_processor.go: Consume", "collector/pkg/component/consumer/processor/aggregateprocessor/processor.go: Consume, runTicker", "collector/pkg/component/consumer/exporter/otelexporter/consume.go: Consume"]}
{"id": "C70", "title": "The request counters of a pod say what its processes received and sent", "statement": "Whatever socket events the collector gets and whenever it scans for overdue conversations: once the records of the network analyzer went through the pipeline, the request counter of a pod is the number of conversations that ended and were served by its containers, its time counter the sum of their durations (connect to last response), and its byte counters the sums of what the system calls of the requests and responses returned. When no conversation is pending the request bytes are those of all the requests the pod's containers received; and when moreover every request on a connection waits for the response to the one before it, the request counter is the number of requests.", "quantifier": "all histories of socket events and scans from the start of the collector, all orders in which records reach the pipeline among the groups of the other analyzers, all contents of the Kubernetes caches that give the pod a fixed set of containers, all adapter switches and custom labels", "why_tests_cant": "grouping, protocol detection, parsing, record making, enrichment, aggregation and export each keep state over the whole history; a request lost or counted twice shows only for particular interleavings of connections, payloads and scans", "anchors": ["collector/pkg/component/analyzer/network/network_analyzer.go: processEvent, distributeTraceMetric, parseProtocols, getRecords, consumerUnFinishTrace", "collector/pkg/component/analyzer/network/message_pair.go", "collector/internal/application/application.go: buildPipeline"]}
{"id": "C71", "title": "No sequence of socket events stops the collector", "statement": "Whatever TCP socket events the collector gets, in whatever order and with whatever payload bytes, and whenever it scans for overdue conversations, the network analyzer works them off and goes on; a failing event is at most dropped. With the HTTP, DNS, Kafka and RocketMQ parsers this holds for every event; with Redis as well, if no message of a sendmmsg is empty; with MySQL as well, if no message has fewer than eight bytes. Beyond these limits it is false: a six-byte MySQL error, an empty message on any connection, a Dubbo JSON call with a one-character line or a short request on a port configured as Dubbo ends the process.", "quantifier": "all histories of events and scans from the start of the collector, all payloads, all options, all tables of parsers that give verdicts on the payloads in question", "why_tests_cant": "an index out of range is reached only by particular bytes at particular places of a history: a payload is cut by the probe, merged from several system calls, tried with every enabled parser and converted to text by the protocol's rules", "anchors": ["collector/pkg/component/analyzer/network/network_analyzer.go: processEvent, parseProtocols, parseProtocol, parseMultipleRequests, getRecords, getConnectFailRecords", "collector/pkg/component/analyzer/network/message_pair.go", "collector/pkg/component/analyzer/network/protocol/redis/redis_request.go", "collector/pkg/component/analyzer/network/protocol/mysql/mysql_response.go"]}
{"id": "C72", "title": "The probe's events reach the analyzers whole, once and in order", "statement": "Every event the kernel probe returns is given to the analyzers with the same content: name, times, process, file descriptor, addresses and every parameter in its place. The analyzers get the events in the probe's order, none twice and none left out between two delivered ones, however the reading and the consuming loop are scheduled; each analyzer gets the events it subscribed to; the event counters count what was read. An event with more than 16 parameters, a value of 2^31 bytes or more, or a string that does not end stops the collector, no other does. After Shutdown the loops come to rest after a bounded number of steps and, if both were running, nothing is delivered once it has returned; it returns if the channel has room for one batch. False beyond that: with a full channel Shutdown can wait for ever; it drops what is in the channel; and if a loop has not begun to run, events are delivered after it returned.", "quantifier": "all C events, all batches, all schedules of the two loops and of Shutdown, all capacities of the channel", "why_tests_cant": "the loops, the channel and Shutdown interleave freely, and the conversion reads memory whose content is not the collector's", "anchors": ["collector/pkg/component/receiver/cgoreceiver/cgoreceiver.go: convertEvent, startGetEvents, consumeEvents, Shutdown, sendToNextConsumer", "collector/pkg/component/receiver/cgoreceiver/cgo_func.h: kindling_event_t_for_go", "collector/pkg/component/analyzer/manager.go: GetConsumableAnalyzers", "collector/pkg/component/receiver/cgoreceiver/self_metrics.go"]}
{"id": "C73", "title": "A sampled slow request is stored once and its events are sent for the configured seconds", "statement": "While CPU profiling is on, a slow request that was sampled is stored once, in whatever order the sampling goroutine, the storing goroutine and the requests run, and it is not lost while profiling stays on; this holds over any number of sessions as long as profiling is switched on again only after the goroutines of the earlier session have returned, which they can. The routine that sends the events around the request, if it is always waiting when the clock fires, runs once a second for the configured number of seconds, so the seconds from the edge before the request to the edge after it are sent. False beyond that: a goroutine that is busy while profiling is switched off and on again lives on in the new session, so that requests are stored twice, a request of the stopped session is stored in the new one, or one of the new session is lost; a routine that is late may send nothing, or more often than configured.", "quantifier": "all histories of starting and stopping profiling, all requests, all schedules of the goroutines, all numbers of seconds, all delays of the routine", "why_tests_cant": "the goroutines read the channels of the current session at every turn, and select picks among what is ready", "anchors": ["collector/pkg/component/analyzer/cpuanalyzer/module_control.go: StartProfile, StopProfile", "collector/pkg/component/analyzer/cpuanalyzer/send_trigger.go: sampleSend, ReadTriggerEventChan, ReceiveDataGroupAsSignal, SendEventsTask", "collector/pkg/component/analyzer/cpuanalyzer/scheduled_task.go: ScheduledTaskRoutine"]}
{"id": "C74", "title": "The connection counters of a pod say what its processes' connection attempts came to", "statement": "Events given to the TCP connection analyzer are analysed in the order of the calls, none skipped and none twice; every decided connection attempt is handed over exactly once with its process, times, outcome and error number, and nothing else is. The number of connections and the connection time exported for a pod, by outcome and error number, are the number of the attempts decided so whose source the metadata gives to the pod, and the sum of the times of those that succeeded, whatever the scans find, whatever other groups pass and however the deliveries are batched. The goroutine does not stop by itself for events with complete attributes. After Shutdown nothing is handed over. False: that events still in the channel at Shutdown are analysed; that wait_event_second of 1 or 2 seconds works (the collector panics at start); that an attempt without a source port is reported.", "quantifier": "all histories of calls, ticks of the scan, contents of /proc, answers of the connection tracker and a shutdown; all other groups, caches, configurations and deliveries", "why_tests_cant": "the analyzer hears of an attempt from three sources in any order and interleaving with its own scans, and the counters are formed by four later stages", "anchors": ["collector/pkg/component/analyzer/tcpconnectanalyzer/analyzer.go: Start, ConsumeEvent, consumeChannelEvent, trimConnectionsWithTcpStat, generateDataGroup, Shutdown", "collector/pkg/component/analyzer/tcpconnectanalyzer/internal/connect_monitor.go", "collector/pkg/component/consumer/exporter/otelexporter/consumer.go: ConsumeMetricsGroup"]}
{"id": "C75", "title": "The inventory of workloads that a scrape shows", "statement": "A scrape shows exactly the workloads the collector handed over since the previous scrape (or restart of the meter), each once, with the value 1 and the labels namespace, kind, name and the custom labels, whatever else is exported meanwhile. Each of them was in the inventory at a tick, so it belonged to a pod of this node that was alive then or whose deletion was waiting; and when a round of the ticker ended since the previous scrape, every workload of the inventory at that tick is shown. False: that every scrape shows the inventory (of two scrapes between two ticks the second shows none of it).", "quantifier": "all histories of ticks, hand-overs, other groups, scrapes, restarts and a shutdown in any interleaving; all caches reached by Kubernetes events; all orders of the maps", "why_tests_cant": "the rounds of the goroutine, the scrapes and the other groups interleave freely, and the caches come from any history of events", "anchors": ["collector/pkg/component/analyzer/k8sinfoanalyzer/k8sinfoanalyzer.go: sendToNextConsumer, Start, Shutdown", "collector/pkg/metadata/kubernetes/pod_watch.go: GetWorkloadDataGroup", "collector/pkg/component/consumer/exporter/otelexporter/instrument.go: recordLastValue"]}
{"id": "C76", "title": "The connection of a collector to the metadata provider", "statement": "Wherever a connection breaks: until the whole snapshot has arrived nothing changes and the attempt has failed; after that the caches are those of the snapshot with exactly the changes applied whose line arrived completely, in order, and nothing the collector knew before that snapshot makes a difference. The collector never gives up connecting, three failures in a row always contain a pause of a minute, and a pause only follows two failures in a row. False: that it pauses after three failures only (two are enough after a connection), that connections that end at once slow it down (it asks again without any pause), and that no line of the stream can stop the collector (an unknown operation on a known kind of object does).", "quantifier": "all snapshots and sequences of changes, all points at which the stream ends, all histories of attempts", "why_tests_cant": "every byte of the stream is a point where the connection can break, and the histories of attempts are unbounded", "anchors": ["collector/pkg/metadata/metaprovider/client/client.go: ListAndWatch, apply", "collector/pkg/metadata/metaprovider/client/unwrapper_handler.go: Apply", "collector/pkg/metadata/kubernetes/initk8s.go: watchFromMPWithRetry", "collector/pkg/metadata/metaprovider/service/service.go: broadcast, ListWithSemaphore"]}
{"id": "C77", "title": "The life of the collector's process", "statement": "With periods below 292 years, a collector comes up exactly when its configuration is complete and in range (a section for the control API and at most one profile module, the sections of the chosen exporter, a positive aggregation interval and inventory interval, at least three seconds for the events of a connection, no negative channel size, an absolute path that can be created) and the systems it needs at the start answer. Its analyzers share one connection tracker, the kernel's exactly if the option is on and netlink answers, and none asks a tracker that is not there; traces and profiles go to the configured storage. A signal that arrives once it is up is not lost, and once the receiver has stopped, the process ends with code 0 after a bounded number of steps, unless the profiling is stopped or started meanwhile. False: that any positive waiting time works (1 and 2 stop it), that the control API can be left out or switched off, that an unknown storage is refused, that a signal during the start shuts the components down, that a further signal helps when the receiver hangs, and that stopping a profiling session while the process stops is harmless.", "quantifier": "all configurations and answers of the systems around it; all interleavings of signals, main, the connection analyzer and the control API", "why_tests_cant": "the configurations are unbounded and the races of a shutdown are not reproducible; a test runs one configuration", "anchors": ["collector/cmd/kindling-collector/main.go: main", "collector/internal/application/application.go: New, Run, Shutdown, buildPipeline", "collector/pkg/component/analyzer/manager.go: StartAll, ShutdownAll", "collector/pkg/component/controller/controller.go: ConstructConfig, RegistModule", "collector/pkg/component/consumer/exporter/otelexporter/otelexporter.go: NewExporter, registerResetSchedule", "collector/pkg/component/consumer/exporter/cameraexporter/exporter.go: New, Consume", "collector/pkg/metadata/conntracker/conntracker_linux.go: NewConntracker", "collector/pkg/component/analyzer/tcpconnectanalyzer/analyzer.go: Start, Shutdown", "collector/pkg/component/analyzer/cpuanalyzer/module_control.go: StartProfile, StopProfile"]}
{"id": "C78", "title": "The slow outgoing calls of a profiling session reach the threads", "statement": "Every slow outgoing call that is reported while the profiling is on is put into the rings of the threads or is on its way there for as long as the profiling is not stopped, never more often than it was reported, and the goroutines by themselves can bring everything that is on its way to its place. In the first session of a collector the calls of one goroutine arrive in the order in which it reports them, without gaps. False: that a stop is harmless for the goroutine that reports (it can be left at a full channel for ever, whatever is started later), that a session only gets its own calls, and that the order holds after a quick stop and start.", "quantifier": "all numbers of reporting goroutines, all histories of reports, starts and stops, all interleavings of reporters and readers", "why_tests_cant": "the loss and the hang need a full channel of 10000 calls and particular interleavings of a stop; a test runs one schedule", "anchors": ["collector/pkg/component/analyzer/cpuanalyzer/send_trigger.go: ReceiveDataGroupAsSignal, ReadTraceChan", "collector/pkg/component/analyzer/cpuanalyzer/module_control.go: StartProfile, StopProfile", "collector/pkg/component/analyzer/cpuanalyzer/cpu_analyzer.go: ConsumeTraces, PutEventToSegments"]}
{"id": "C79", "title": "Shared tables of the profiling analyzer", "statement": "Whatever events, exits, traces, clean-up rounds, sendings, starts and stops run at once, next to any use of the Kubernetes metadata: the rings of the threads, the queue of exited threads and the running Java traces are never read and written at once; the segments of a trace are sent from rings that nobody changes meanwhile; and in a process that hands out no metadata snapshots nobody waits for ever. False for the table of processes with an APM agent (a plain map without a lock: Go stops the collector), for the queue of Java traces to drop (two different locks), for the switch of the profiling and what a start replaces (no lock), and for the marks of the segments (written under the lock for readers).", "quantifier": "any number of goroutines with any lists of calls of the analyzer and of the metadata cache, all schedules", "why_tests_cant": "races depend on the schedule; the race detector only sees the runs it watches", "anchors": ["collector/pkg/component/analyzer/cpuanalyzer/cpu_analyzer.go: ConsumeEvent, PutEventToSegments, analyzerJavaTraceTime, trimExitedThread", "collector/pkg/component/analyzer/cpuanalyzer/send_trigger.go: ReceiveDataGroupAsSignal, sendEvents", "collector/pkg/component/analyzer/cpuanalyzer/delete_tid.go: TidDelete", "collector/pkg/component/analyzer/cpuanalyzer/delete_javatrace.go: JavaTraceDelete", "collector/pkg/component/analyzer/cpuanalyzer/module_control.go: StartProfile, StopProfile"]}
{"id": "C80", "title": "A DNS query over UDP is one record that says what was asked and answered", "statement": "Every record about a DNS query over UDP names the process, addresses and ports of the query and its id. If an answer of the same socket with the same id came, the record has the name in that answer, its response code, an error exactly when the code is a failure (name errors may be configured not to count), the time from the start of the query to the answer, and whether that is slow; if none came in time it has the name asked for and is marked as unanswered. A query whose id is not used again on its socket, whatever else goes on there and on other sockets, has exactly one such record: the answered one when the answer comes before a scan finds it overdue, the unanswered one after the scan that does. No payload crashes this. False: that the record shows the name that was asked for (an answer with the same id about another name is taken).", "quantifier": "all histories of UDP events and scans, all payloads, batches of messages included", "why_tests_cant": "histories and payloads are unbounded; the tests feed one query and one answer", "anchors": ["collector/pkg/component/analyzer/network/network_analyzer.go: processEvent, consumeUdpDnsRequest, consumerFdNoReusingTrace, getRecordWithSinglePair", "collector/pkg/component/analyzer/network/udp_cache.go: DnsUdpCache, parseDnsUdpRequest, parseDnsUdpResponse, getUdpKey", "collector/pkg/component/analyzer/network/protocol/dns"]}
{"id": "C81", "title": "What Elasticsearch gets: each second of activity once per change, each abnormal request as it is", "statement": "With Elasticsearch as the storage of the profiling data, a second of a thread's activity is indexed again only if an event that covers it arrived since, and after a window of a process was sent every second of the window that holds events of one of its threads is indexed with all the events it holds now, in the index the configuration names. The trace exporter indexes one document for each abnormal request, with its name, time, last value of each metric and text of each label, and nothing for any other group; it panics exactly on a histogram among the metrics. False: that every configured storage name gives an exporter that takes groups (a name other than the two known is accepted and the first group crashes the collector).", "quantifier": "all histories of events, sends, exits, checks, starts and stops; all groups and configurations", "why_tests_cant": "histories and groups are unbounded; the tests only try to reach a server", "anchors": ["collector/pkg/component/consumer/exporter/esexporter/esexporter.go: Consume, sendTrace", "collector/pkg/component/consumer/exporter/cameraexporter/exporter.go: New, Consume, esWriter.write", "collector/pkg/component/analyzer/cpuanalyzer/send_trigger.go: sendEvents", "collector/pkg/component/analyzer/cpuanalyzer/model.go: toDataGroup"]}
{"id": "C82", "title": "Starting the connection tracker: whose tables are read, and what stays open afterwards", "statement": "When it starts, the tracker reads the table of existing connections of the root network namespace and, if configured, of each namespace of a process that the root namespace knows as a peer: never another one, none twice, and if no system call fails each of them, the root's first. As long as no switch back fails, every thread of the process is afterwards in the namespace it was in. If nothing fails, exactly one handle is left open for each table read, and two for each time the stream of new connections is opened. The caller gets what the set-up found, or is told that the time is over. False: that every thread is back when a switch back fails; that the handles opened are closed, also when the reading cannot start; that a limit on open files suffices for any number of restarts; that a set-up whose caller gave up ends.", "quantifier": "all lists of processes and namespaces, all choices of threads, all patterns of failing system calls, all numbers of restarts, all orders of set-up, report and timer", "why_tests_cant": "the patterns of failing calls and the choice of threads belong to the system; a leak shows only after many restarts; the tests need root and one namespace", "anchors": ["collector/pkg/metadata/conntracker/internal/utils.go: GetNetNamespaces, WithAllProcs, WithNS, WithRootNS", "collector/pkg/metadata/conntracker/internal/consumer.go: DumpTable, dumpTable, initNetlinkSocket, throttle", "collector/pkg/metadata/conntracker/internal/conntracker.go: NewConntracker"]}
{"id": "C83", "title": "The configuration file: what every option means, and which sections the collector cannot do without", "statement": "An option written in a component's section, of the option's type, is the value the component runs with, whatever else the section says; an option not written has the documented default, also when other options of the section or of the part it lies in are written. The collector comes up exactly when every section it cannot do without is there and can be read and the components it starts can start. False: that a component whose section is left out runs with its defaults (several stop the start); that a sampling rate given for one kind of trace leaves the documented rates of the others; that names used as keys keep their capital letters.", "quantifier": "all configuration files (trees of values), all sections and options, all values of the wrong shape", "why_tests_cant": "the combinations of options given, left out and malformed are unbounded; the tests read a few complete files", "anchors": ["collector/internal/application/application.go: readInConfig, buildPipeline", "collector/internal/application/factory.go: ConstructConfig", "collector/pkg/component: NewDefaultConfig of the components", "collector/docker/kindling-collector-config.yml"]}
{"id": "C84", "title": "The log shows the messages at or above each output's level, and the debugging messages of the selected components", "statement": "On the console and in the file appear exactly the messages at or above that output's level, once and in order; debugging messages only of the selected components, or of all when none is selected; messages at the other levels do not depend on the selection. With both outputs off nothing but a panic is shown. A panic is written to the outputs and ends the process. The name that selects a component is the name of its section. False: that a message above the debugging level is shown even when the code asks first whether to write it; that the names of the levels may be written in capital letters; that asking for a log on the console alone is enough to start.", "quantifier": "all configurations of the log, all selections, all sequences of messages from all components", "why_tests_cant": "the combinations of the two levels, the selection and the messages are unbounded; the tests do not look at what is written", "anchors": ["collector/pkg/component/telemetry.go: SelectorOption, Debug, Check, Panic", "collector/pkg/observability/logger/logger.go: InitLogger, toLogLevel"]}
{"id": "C85", "title": "Debugging messages show events as they are and do not change what the analyzers get", "statement": "With the receiver's debugging messages off, what the analyzers get does not depend on the log. With them on - one output is at level debug, and nothing or the receiver is selected - every event's text is written, in order, and the analyzers get the same, as long as every value has the bytes its type needs; exactly then the text can be made. Numbers are shown in decimal; text one character for each character, a dot for those that are not printable ASCII, at most 200 bytes and the number of bytes left out; the attributes in order. False: that turning the messages on is harmless for every event the receiver accepts.", "quantifier": "all events the receiver can convert, all values of all types, all configurations of the log, all sequences of events", "why_tests_cant": "the values of events are arbitrary bytes with arbitrary declared types; the tests print none", "anchors": ["collector/pkg/model/kindling_event.go: TextKindlingEvent, textUserAttributes, textUserAttribute, bytesReader", "collector/pkg/component/receiver/cgoreceiver/cgoreceiver.go: sendToNextConsumer"]}
{"id": "C86", "title": "Data groups do not get into each other's way", "statement": "Whatever a program does with its data groups through their methods - making them, adding integers and histograms, overwriting, removing, resetting, cloning - each group shows exactly what the operations on it alone make of it, and a clone shows what its original showed; afterwards nothing done to either, or to any other group, changes the other. False once a metric of one group is added to another, and for buckets written in place after a clone.", "quantifier": "all sequences of operations on any number of groups, of any names, metrics and values", "why_tests_cant": "groups are pointers to pointers that are cloned, cleared for the pool and reused; sharing only shows after particular histories", "anchors": ["collector/pkg/model/data_group.go: AddMetric, UpdateAddIntMetric, RemoveMetric, Reset, Clone", "collector/pkg/model/metric.go: Clear, Clone"]}
{"id": "C87", "title": "A client's stream of metadata that is closed gets nothing more", "statement": "However many goroutines write to, flush and close the stream to a client at the same time, in whatever order their steps come, nothing panics; at most one Close reports success, and exactly one when all are done; a Write called after a Close has returned writes and flushes nothing and reports an error; without a Close, a Write has its message written, then flushed, before it returns; after a flush Flushed says so. False: that nothing is written after Close has returned - a Write under way can.", "quantifier": "all schedules of all numbers of goroutines with all sequences of calls", "why_tests_cant": "the properties are about interleavings of single steps of several goroutines", "anchors": ["collector/pkg/metadata/metaprovider/ioutil/writeflusher.go: Write, Flush, Flushed, Close, NewWriteFlusher", "collector/pkg/metadata/metaprovider/service/service.go: broadcast, watch"]}
{"id": "C88", "title": "The metadata provider tells each change once, counts it, and names its clients", "statement": "Whatever the informers report, each change is first kept in the provider's own cache and then told to the clients, once, in order, with its type, its operation and its objects, and the counters of each type and operation are the numbers of changes reported. A deleted pod is told without managed fields, volumes and conditions. A client's name is an address: X-Real-IP if that is one, else the first address in X-Forward-For, else where it connected from. False: that added and updated pods are trimmed, that X-Forwarded-For is looked at, that blanks in the list do not matter.", "quantifier": "all histories of changes of all objects, all requests", "why_tests_cant": "histories and header values are unbounded, and the handler's methods that trim are not the ones registered, which only the composition shows", "anchors": ["collector/pkg/metadata/metaprovider/service/handler.go: NewHandler, AddObj, UpdateObj, DeleteObj, decreasePodInfo", "collector/pkg/metadata/metaprovider/service/service.go: GetIPFromRequest, ListAndWatch, EventCount, broadcast"]}
{"id": "C89", "title": "A stored trace reads back as what it was", "statement": "The text in which a data group is stored is JSON that any reader of RFC 8259 reads back, whatever bytes are in it: the same name and time, every label with its value and its type and no other, every metric with its numbers in order; bytes that are no UTF-8 become U+FFFD, one each, and everything that is UTF-8 is kept. The text of labels does not depend on the order in which their map is ranged over. A trace file splits at its lines of dashes into exactly the trace and the CPU events that were appended to it, whatever their labels contain. False: that the collector's own label maps can be read back from their JSON, and that labels with bytes that are no UTF-8 stay distinct.", "quantifier": "all data groups with all labels, texts and numbers; all numbers of appended events", "why_tests_cant": "labels carry whatever bytes clients sent: every escape, every invalid byte and every nesting has to be read back, and a line of dashes inside a payload must not split the file", "anchors": ["collector/pkg/model/attribute_map.go: MarshalJSON, UnmarshalJSON", "collector/pkg/model/data_group.go: DataGroup", "collector/pkg/model/metric.go: Metric, Histogram", "collector/pkg/component/consumer/exporter/cameraexporter/filewriter.go: writeFile, writeCpuEvents"]}
{"id": "C90", "title": "Where Kubernetes metadata comes from", "statement": "The first attempt of a process to connect to Kubernetes decides. With a metadata provider configured, its client is started and no API server is asked. Without one it fails exactly when the API server cannot be reached in the way asked for (service account, no authentication, or a kubeconfig file, which alone needs no service address), and then watches nothing; otherwise nodes, replica sets if asked for, services and pods are watched, with the handlers and the grace period given last. Later calls change nothing. A slow Java transaction then names its pod. False: that it does so with a metadata provider, and that a failure is reported again by a later call.", "quantifier": "all lists of options, all environments, all histories of calls, all Java events", "why_tests_cant": "the outcome depends on the environment, on every combination and order of options and on which call of the process came first; a sync.Once makes it impossible to run twice in one test process", "anchors": ["collector/pkg/metadata/kubernetes/initk8s.go: InitK8sHandler, initWatcherFromAPIServer, initWatcherFromMetadataProvider, makeClient, createRestConfig, Validate", "collector/pkg/metadata/kubernetes/config.go: Option", "collector/pkg/component/consumer/processor/k8sprocessor/kubernetes_processor.go: NewKubernetesProcessor", "collector/pkg/metadata/metaprovider/service/service.go: NewMetaDataWrapper", "collector/pkg/component/analyzer/cpuanalyzer/cpu_analyzer.go: ConsumeTransactionIdEvent"]}
{"id": "C91", "title": "CPU events read back from a stored segment", "statement": "A stored second of a thread's activity holds its five lists of events as texts inside its labels, and those texts are JSON again: reading the group and then a label gives back every CPU, lock, transaction, span and inner-call event, with all its times, lists and texts, in order, whatever bytes the kernel or the Java agent put in them (U+FFFD for each byte that is no UTF-8); thread, thread name and times are there too. Everything written is valid UTF-8. A segment read by the code's own reader has the same times and CPU events. False: that its lock events survive (each becomes the last one) and that spans, transactions and inner calls do.", "quantifier": "all segments, events, bytes and traces", "why_tests_cant": "JSON inside JSON is escaped twice: every byte of stacks, logs and lock names, of which none is checked, must survive both", "anchors": ["collector/pkg/component/analyzer/cpuanalyzer/model.go: Segment, toDataGroup, UnmarshalJSON, CpuEvent, JavaFutexEvent, TransactionIdEvent, ApmSpanEvent, InnerCall, CPUType", "collector/pkg/component/analyzer/cpuanalyzer/send_trigger.go: sendEvents", "collector/pkg/model/data_group.go: DataGroup"]}
{"id": "C92", "title": "The connection tracker's own metrics", "statement": "While nothing else happens, a scrape of the connection tracker's own metrics shows: as look-ups the number of look-ups made, as added the translated connections read at the start or announced, as dropped the announced ones that are not translated; as size the number of tuples a look-up would find, at most the shown maximum, and of these as orphans the ones announced and not asked for since. Size, evictions and removals together are never more than the tuples stored, and exactly that many while no tuple is stored twice. Counters never go back, even if each is read at another moment, and the counters of the netlink consumer are passed on unchanged. Counting changes no answer. False: that the numbers of one scrape always balance: the sizes are read under a lock and the counters after it.", "quantifier": "all histories of loads, announcements, look-ups, deletions and compactions, all cache sizes and time-outs, all moments of a scrape", "why_tests_cant": "the numbers are sums over the whole history, with evictions and expiry in between; a test sees a few calls and one schedule", "anchors": ["collector/pkg/metadata/conntracker/internal/conntracker.go: GetTranslationForConn, GetStats, DeleteTranslation, loadInitialState, register, compact", "collector/pkg/metadata/conntracker/internal/consumer.go: GetStats", "collector/pkg/metadata/conntracker/conntracker_linux.go: GetStats", "collector/pkg/metadata/conntracker/self_metrics.go: newSelfMetrics"]}
{"id": "C93", "title": "Requests to the control API", "statement": "A request to the control API's only path is refused with status 500, changing nothing, exactly when its body is neither null nor an object whose operation is a text and whose process and thread are numbers of 64 bits; names are read in any case, the last of several members decides and null counts as not given; another path is not found and changes nothing. Every other answered request has status 200 and a body that any JSON reader takes apart again into a code and a message: start on a running module and stop on a stopped one change nothing and say so (2, 3); otherwise they start or stop every part and answer 1, or the part's error; status answers running or stopped; attach, detach and debugging call the native library with the low 32 bits of the process and thread given, and pass on its message; any other operation changes nothing and answers 4. A start arms one stop timer, of exactly the duration given last, when that is positive. After any history the requests that get no answer are exactly the understood starts whose options ask for a file watch. False: that the process attached is always the one given (4294967303 attaches to 7), that a number counts seconds (it counts nanoseconds), that an unreadable duration is refused (the module runs for ever), that the answers carry the JSON content type, that a start with a file watch is answered.", "quantifier": "all bodies, all histories of requests and automatic stops, all orders and failures of the module's parts, all messages of the native library", "why_tests_cant": "the body is any JSON value with members in any case and order, and the answer depends on the whole history of requests and timers; a test sends a few well-formed requests", "anchors": ["collector/pkg/component/controller/http_controller.go: ServeHTTP, RegistController", "collector/pkg/component/controller/controller.go: ControlRequest, ControlResponse", "collector/pkg/component/controller/profile_module.go: UnmarshalJSON, HandRequest, GetOptions", "collector/pkg/component/controller/module.go: Start, Stop"]}
