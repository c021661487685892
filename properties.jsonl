{"id": "C01", "title": "CompileMessage emits a well-formed request frame carrying exactly the payload", "statement": "For every payload of at most 253 bytes, CompileMessage returns SOF, the exact length byte, type 0x00 (request), the payload unchanged, and the one checksum byte that makes the XOR of everything after SOF equal 0xFF; two different payloads never give the same frame. For longer payloads the length byte no longer describes the frame.", "quantifier": "every payload byte string of every length", "why_tests_cant": "payload space is unbounded; the tests compile one 2-byte payload", "anchors": ["serialapi/message.go:CompileMessage", "serialapi/message.go:GenerateChecksum"]}
{"id": "C02", "title": "Decode classifies every buffer exactly by the framing grammar and always makes progress", "statement": "On every non-empty buffer Decode, when it returns, reports one of: 'need more' (a length greater than the buffer, iff the buffer starts with SOF and is shorter than its announced frame), 'reject' (-1, iff the first byte is no start byte, or a complete frame fails its checksum), 'control' (1, iff first byte is ACK/NAK/CAN), or 'frame' (announced length + 2, no larger than the buffer, iff a complete frame has a correct checksum). It never reports 0, so a reader that follows it can never spin.", "quantifier": "every non-empty byte buffer with every spare capacity", "why_tests_cant": "all 256^n buffers; tests try fourteen", "anchors": ["serialapi/message.go:Decode"]}
{"id": "C03", "title": "A frame damaged in any single byte is rejected", "statement": "If Decode accepts a complete frame, then changing any one byte between the length byte (exclusive) and the checksum byte (inclusive) to any other value makes Decode reject it.", "quantifier": "every accepted frame, every byte position after the length byte, every replacement value", "why_tests_cant": "pairs of frames and corruptions cannot be enumerated", "anchors": ["serialapi/message.go:Decode", "serialapi/message.go:GenerateChecksum"]}
{"id": "C04", "title": "Decode never crashes on bytes received from the serial line", "statement": "Whatever bytes arrive, Decode returns (possibly with an error) rather than panicking.", "quantifier": "every byte buffer, every spare capacity", "why_tests_cant": "a crash needs one particular byte pattern out of all; fuzzing only samples", "anchors": ["serialapi/message.go:Decode", "serialapi/message.go:NewMessage", "serialapi/discovery_nodes.go:NewDiscoverdNodes", "serialapi/application_command_handler.go:NewApplicationCommandHandler"]}
{"id": "C05", "title": "Decode does not modify the caller's buffer", "statement": "After Decode returns, the bytes of the slice that was passed in are what they were before.", "quantifier": "every byte buffer", "why_tests_cant": "a test that compares only return values never sees the write-through of append", "anchors": ["serialapi/message.go:Decode"]}
{"id": "C06", "title": "The decoded message depends only on the frame's own bytes", "statement": "If a complete frame is at the front of the buffer, Decode's result is the same whatever bytes follow it in the buffer and whatever lies in the buffer's spare capacity.", "quantifier": "every frame, every suffix, every spare capacity", "why_tests_cant": "quantifies over two unbounded byte strings", "anchors": ["serialapi/message.go:Decode", "serialapi/message.go:NewMessage"]}
{"id": "C07", "title": "How the byte stream is split into reads does not change the messages received", "statement": "For a stream made of complete self-contained frames, every way of cutting the stream into read chunks (with less than 40ms between chunks) makes the reader produce the same sequence of decoded messages, one per frame, in order, and leave an empty buffer.", "quantifier": "every sequence of well-formed frames and every chunking of its bytes", "why_tests_cant": "the number of chunkings is exponential in the stream length", "anchors": ["connection.go:Connection.Reader", "serialapi/message.go:Decode"]}
{"id": "C08", "title": "The reader resynchronises on the next frame after line noise", "statement": "If arbitrary noise bytes precede a complete well-formed frame in the buffer, the frame is still recognised and delivered.", "quantifier": "every noise string, every well-formed frame", "why_tests_cant": "unbounded noise; the failing noise patterns are rare", "anchors": ["connection.go:Connection.Reader", "serialapi/message.go:Decode"]}
{"id": "C09", "title": "The reader's inner loop always terminates and accounts for every byte", "statement": "For every buffer the reader's inner loop stops after at most as many iterations as there are bytes, and, unless it crashes, the bytes it consumed followed by the bytes left in the buffer are exactly as many as were there; what is left is empty or an incomplete frame.", "quantifier": "every buffer content", "why_tests_cant": "termination for all inputs cannot be observed by running", "anchors": ["connection.go:Connection.Reader"]}
{"id": "C10", "title": "Every received frame is acknowledged exactly once, and nothing else is", "statement": "In every run, the reader writes one ACK byte (0x06) to the stick per complete checksum-correct frame taken from the buffer, and none for control bytes, rejected bytes or incomplete frames.", "quantifier": "every execution (interleaving, byte stream, chunking)", "why_tests_cant": "quantifies over all schedules and streams", "anchors": ["connection.go:Connection.Reader"]}
{"id": "C11", "title": "Every decoded application report is handed to the report callback once, in order, with the sender's node id", "statement": "In every run, the report callback is invoked once for each application-command frame that decodes, in arrival order, with the node id at offset 5 of that frame and the decoded report; frames that do not decode never invoke it.", "quantifier": "every execution", "why_tests_cant": "all byte streams and interleavings", "anchors": ["connection.go:Connection.Reader", "serialapi/message.go:NewMessage", "controller.go:Controller.DeliverReportToNode"]}
{"id": "C12", "title": "The node bitmap is decoded bit for bit", "statement": "For a bitmap of 6 to 29 bytes, NewDiscoverdNodes marks node position i active iff bit (i mod 8) of byte (i div 8) is set, and every position beyond the bitmap inactive; shorter bitmaps give an error.", "quantifier": "every bitmap byte string", "why_tests_cant": "2^232 bitmaps", "anchors": ["serialapi/discovery_nodes.go:NewDiscoverdNodes"]}
{"id": "C13", "title": "Protocol info flags are decoded from the right bits", "statement": "For every payload of at least 6 bytes NewGetNodeProtocolInfo reports listening=bit7, routing=bit6, version=low three bits+1, max baud 40000 iff bits 3-5 are 010 else 9600 of byte 0; FLIRS iff bit 5 or 6, beaming=bit4, security=bit0 of byte 1; basic, generic, specific = bytes 3,4,5; shorter payloads give an error and never a partial result.", "quantifier": "every payload", "why_tests_cant": "256^6 payloads", "anchors": ["serialapi/get_node_protocolinfo.go:NewGetNodeProtocolInfo"]}
{"id": "C14", "title": "Report decoding is total: a report or an error, never both, never a crash", "statement": "For every command, command class and payload, reports.New returns either a report and no error or an error; it never panics, and the report's kind is determined by (command, class, payload length) exactly as the dispatch table says.", "quantifier": "every command byte, class byte and payload of any length", "why_tests_cant": "payload space is unbounded", "anchors": ["commands/reports/report.go:New", "commands/reports/alarm.go:NewAlarm", "commands/reports/wakeup.go:NewWakeUp"]}
{"id": "C15", "title": "Switch reports decode to the documented state", "statement": "Binary V1: on iff the byte is 0xFF, valid iff not 0xFE. Binary V2: current/target on iff non-zero, duration byte verbatim. Multilevel V1/V4: value = min(byte,100), valid iff byte is not 0xFE. All other lengths are errors.", "quantifier": "every payload", "why_tests_cant": "all payload bytes and lengths at once", "anchors": ["commands/reports/switch_binary.go:NewSwitchBinaryV1", "commands/reports/switch_binary.go:NewSwitchBinaryV2", "commands/reports/switch_multilevel.go:NewSwitchMultilevelV1", "commands/reports/switch_multilevel.go:NewSwitchMultilevelV4"]}
{"id": "C16", "title": "A sensor reading is the float64 nearest to the transmitted decimal value", "statement": "For size 1, 2 or 4 the reported value is the IEEE double nearest to v/10^p, where v is the big-endian two's complement integer in the next size bytes and p the top three bits of the header byte; trailing bytes do not matter.", "quantifier": "every payload with size 1, 2 or 4", "why_tests_cant": "2^35 (value, precision) combinations", "anchors": ["commands/reports/sensor_multi_level.go:NewSensorMultiLevel"]}
{"id": "C17", "title": "A sensor report with an unsupported value size is rejected", "statement": "If the size field is not 1, 2 or 4, NewSensorMultiLevel returns an error instead of a fabricated reading.", "quantifier": "every payload", "why_tests_cant": "the error branch is absent, so only a claim about all sizes exposes it", "anchors": ["commands/reports/sensor_multi_level.go:NewSensorMultiLevel"]}
{"id": "C18", "title": "Readings of different sensor types never overwrite each other in a node's state", "statement": "The state key under which a multilevel sensor reading is stored determines the sensor type: two reports with different type bytes are always stored under different keys, whatever their scales.", "quantifier": "every pair of sensor type bytes and scales", "why_tests_cant": "all pairs of 256x4 header values, through string formatting and lower-casing", "anchors": ["commands/reports/sensor_multi_level.go:NewSensorMultiLevel", "nodes/node.go:Node.ProcessEvent"]}
{"id": "C19", "title": "Z-Wave durations convert to the documented time span", "statement": "Duration is 0 for 0x00, n seconds for n in 1..0x7F, n-0x7F minutes for n in 0x80..0xFD and an error for 0xFE and 0xFF; it is never negative and never above 126 minutes, and String() prints exactly that span in Go's duration syntax.", "quantifier": "every duration byte", "why_tests_cant": "formatting of all values, both branches", "anchors": ["commands/duration.go:Duration.Duration", "commands/duration.go:Duration.String"]}
{"id": "C20", "title": "Manufacturer, type and product ids are rendered injectively as four lower-case hex digits", "statement": "For a 6-byte payload each of the three big-endian 16-bit ids is rendered as exactly four lower-case hex digits that determine it; any other length is an error.", "quantifier": "every payload", "why_tests_cant": "2^48 payloads", "anchors": ["commands/reports/manufacturer_specific.go:NewManufacturerSpecific"]}
{"id": "C21", "title": "The endpoint report is decoded into the device's endpoint count and flags", "statement": "dynamic = bit 7 and identical = bit 6 of the first byte, endpoint count = the second byte; fewer than two bytes is an error; extra bytes are ignored.", "quantifier": "every payload", "why_tests_cant": "all payloads of all lengths", "anchors": ["commands/reports/multi_instance_endpoint.go:NewMultiChannelEndpoints"]}
{"id": "C22", "title": "The dim level sent to a device is the requested level, clamped and truncated", "statement": "For every float64 level that is not NaN, SwitchMultilevel sends 0 if the level is below 1, 99 if above 99, and its integer part otherwise; the byte is never above 99. Node byte and framing bytes are fixed.", "quantifier": "every float64", "why_tests_cant": "2^64 values; boundaries and infinities", "anchors": ["commands/SwitchMultilevel.go:CmdSwitchMultilevel.SetValue", "commands/SwitchMultilevel.go:CmdSwitchMultilevel.Encode"]}
{"id": "C23", "title": "Multi-channel encapsulation addresses the endpoint and preserves the inner command", "statement": "Encapsulating any command of at least 3 bytes (function, node, length, body) for endpoint e keeps function and node, adds 4 to the length, prefixes the body with 60 0D 01 e and leaves the body bytes unchanged; the inner command and the endpoint (mod 256) can be recovered from the result.", "quantifier": "every inner command and endpoint number", "why_tests_cant": "unbounded commands", "anchors": ["commands/MultiChannelEncap.go:MultiChannelEncap.Encode"]}
{"id": "C24", "title": "The length byte of a raw command is the number of command bytes that follow", "statement": "commands.Raw.Encode sends a length byte equal to the number of bytes that follow it.", "quantifier": "every raw payload", "why_tests_cant": "holds or fails uniformly over all payload lengths; a test on one payload cannot show it", "anchors": ["commands/raw.go:Raw.Encode"]}
{"id": "C25", "title": "On/Off/Level send the command the node supports, and nothing otherwise", "statement": "On a node that supports binary switching, On/Off send exactly one binary-switch set with 0xFF/0x00 to that node; otherwise, if it supports multilevel switching, one multilevel set with 99/0; otherwise nothing is sent. Level sends a multilevel set iff multilevel is supported. The bytes on the wire are a well-formed frame.", "quantifier": "every node id, every command class list, every level", "why_tests_cant": "all class lists", "anchors": ["nodes/commands.go:Node.On", "nodes/commands.go:Node.Off", "nodes/commands.go:Node.Level", "nodes/node.go:Node.HasCommand"]}
{"id": "C26", "title": "Endpoint(k) addresses endpoint k of the device", "statement": "After endpoints were requested from a device reporting n endpoints, Node.Endpoint(k) for 1<=k<=n returns an endpoint whose commands are encapsulated for endpoint k; for other k it returns nil and never crashes.", "quantifier": "every endpoint count and every k", "why_tests_cant": "all (n,k) pairs, including out of range ones", "anchors": ["nodes/endpoints.go:Node.Endpoint", "nodes/request_endpoints.go:Node.RequestEndpoints", "nodes/endpoints.go:Endpoint.Write"]}
{"id": "C27", "title": "Matching a received frame against a pending request never crashes", "statement": "For every pending request and every received frame the matching decision is made without a panic, and it is: same function (or data-to-report pairing), and, unless the request was for protocol info, the request's non-zero node, command class and expected report bytes equal bytes 5, 7 and 8.", "quantifier": "every request, every frame", "why_tests_cant": "all frames of all lengths", "anchors": ["connection.go:sendPackage.Match", "connection.go:MatchByteAt", "connection.go:newSendPackage"]}
{"id": "C28", "title": "A protocol-info response is only delivered to the request for that node", "statement": "If two protocol-info requests for different nodes are pending, one response frame is delivered to at most one of them.", "quantifier": "every execution", "why_tests_cant": "needs a schedule with two requests pending at once", "anchors": ["connection.go:sendPackage.Match", "connection.go:Connection.Reader", "nodes/protocol_info.go:Node.RequestProtocolInfo"]}
{"id": "C29", "title": "A request gets at most one response, is closed at most once, and gets nothing after closing", "statement": "For every request and every schedule, the reply channel receives at most one message, is closed at most once, and no message is sent after the close (so no send-on-closed or double-close panic can occur).", "quantifier": "every interleaving of callers, writers, reader, timers, resends and reconnects", "why_tests_cant": "all schedules", "anchors": ["connection.go:sendPackage.Close", "connection.go:Connection.Reader", "connection.go:Connection.timeoutWorker"]}
{"id": "C30", "title": "A request with a timeout can never hang: it is answered, refused or timed out", "statement": "In every reachable state, every request with a non-zero timeout that has been taken by the writer and whose reply channel is still open is in the table of pending requests and has a running timer whose expiry closes the channel.", "quantifier": "every reachable state of every interleaving", "why_tests_cant": "liveness over all schedules", "anchors": ["connection.go:Connection.Writer", "connection.go:Connection.timeoutWorker", "connection.go:Connection.WriteWithTimeout"]}
{"id": "C31", "title": "Commands are sent stop-and-wait: never two outstanding unacknowledged commands", "statement": "In every run, between two command writes there is an ACK/NAK/CAN result or a one-second send timeout for the first.", "quantifier": "every interleaving", "why_tests_cant": "all schedules", "anchors": ["connection.go:Connection.Writer"]}
{"id": "C32", "title": "Commands reach the wire in the order they were issued, unmodified, exactly once per issue", "statement": "In every run, the sequence of command frames written to the port is a prefix of the sequence of issued sends (user sends and CAN-triggered resends in the order they were queued), and each written frame is the compiled frame of its command.", "quantifier": "every interleaving", "why_tests_cant": "all schedules", "anchors": ["connection.go:Connection.Write", "connection.go:Connection.Writer", "connection.go:newSendPackage"]}
{"id": "C33", "title": "A cancelled command is the one that is re-sent", "statement": "When the stick answers CAN to the last command, that same command is queued again after the back-off.", "quantifier": "every state of the pending table and every map iteration order", "why_tests_cant": "depends on Go's random map order and on loop-variable capture", "anchors": ["connection.go:Connection.Reader"]}
{"id": "C34", "title": "A NAK fails only the command it answers", "statement": "A NAK removes and closes exactly the last written command; every other pending request and reply channel is untouched. With no command awaiting a result a control byte changes nothing.", "quantifier": "every state, every iteration order", "why_tests_cant": "all pending tables", "anchors": ["connection.go:Connection.Reader"]}
{"id": "C35", "title": "Waiting for a report never crashes the process", "statement": "WriteAndWaitForReport delivers the matching report or closes the channel; a matching frame whose payload this library cannot decode does not crash.", "quantifier": "every execution", "why_tests_cant": "needs a matching but undecodable frame", "anchors": ["connection.go:Connection.WriteAndWaitForReport", "connection.go:Connection.Reader", "nodes/request_states.go:Node.RequestStates"]}
{"id": "C36", "title": "Fire-and-forget commands do not accumulate", "statement": "The table of pending requests is bounded by the number of commands that are still waiting for something.", "quantifier": "every execution", "why_tests_cant": "growth over unbounded histories", "anchors": ["connection.go:Connection.Write", "connection.go:Connection.Writer"]}
{"id": "C37", "title": "Reconnecting does not create additional writers", "statement": "After any number of reconnects there is one goroutine that writes commands, so stop-and-wait still holds.", "quantifier": "every history of reconnects", "why_tests_cant": "long histories", "anchors": ["connection.go:Connection.Connect", "connection.go:Connection.Writer"]}
{"id": "C38", "title": "Connected tells the truth", "statement": "Connection.Connected is true only while a port is open.", "quantifier": "every interleaving of open, read failure and the 200ms connect timer", "why_tests_cant": "a race between a timer and a failure", "anchors": ["connection.go:Connection.Connect"]}
{"id": "C39", "title": "Publishing an event never blocks; the queue keeps the oldest ten undelivered events in order", "statement": "For every history of publishes and reads, publishing always completes, the queue never holds more than ten events, events are read in publication order without duplication, and an event is dropped only when ten events are already waiting.", "quantifier": "every history of pushes and reads", "why_tests_cant": "unbounded histories", "anchors": ["controller.go:Controller.pushEvent", "controller.go:Controller.GetNextEvent"]}
{"id": "C40", "title": "Every node loaded from the configuration is announced", "statement": "After loading a configuration with k nodes the event queue announces each of them.", "quantifier": "every saved configuration", "why_tests_cant": "fails only beyond a size threshold", "anchors": ["controller.go:Controller.LoadConfigurationFromFile", "controller.go:Controller.pushEvent"]}
{"id": "C41", "title": "Node updates are saved once things are quiet, never without a change", "statement": "In every run, each save is preceded by an update that came after the previous save; the number of saves never exceeds the number of updates; and every update that is followed by ten quiet seconds is covered by a save.", "quantifier": "every timed history of updates", "why_tests_cant": "unbounded timed histories", "anchors": ["controller.go:Controller.saveDebouncer"]}
{"id": "C42", "title": "Discovery creates exactly the active nodes, once each", "statement": "For every bitmap, after discovery the node list contains the nodes it contained before plus exactly the active node ids 2..232; existing nodes are kept unchanged; a discovery event is published for exactly the new ones, and identification is started for exactly the active ones.", "quantifier": "every bitmap and every prior node list", "why_tests_cant": "2^232 bitmaps times all lists", "anchors": ["controller.go:Controller.getNodes", "controller.go:Controller.initNode"]}
{"id": "C43", "title": "Saving and loading a configuration preserves the persistent part of every node", "statement": "Loading what was saved gives, for every node, the same id, wake state, ids, names, command classes, endpoints and state values; endpoints point back to their node; volatile fields are reset.", "quantifier": "every controller state", "why_tests_cant": "all node lists", "anchors": ["controller.go:Controller.SaveConfigurationToFile", "controller.go:Controller.LoadConfigurationFromFile", "nodes/list.go:List.MarshalJSON", "nodes/list.go:List.UnmarshalJSON", "nodes/list.go:List.Add"]}
{"id": "C44", "title": "A crash during a save leaves a loadable configuration (old or new)", "statement": "If the process dies at any point of SaveConfigurationToFile, the file on disk is either the previous configuration or the complete new one.", "quantifier": "every crash point, every old and new content", "why_tests_cant": "crash points cannot be hit by unit tests", "anchors": ["controller.go:Controller.SaveConfigurationToFile"]}
{"id": "C45", "title": "Loading any syntactically valid configuration never crashes", "statement": "LoadConfigurationFromFile returns an error or loads the nodes for every JSON document.", "quantifier": "every JSON document", "why_tests_cant": "needs specific documents (missing Nodes, null node)", "anchors": ["controller.go:Controller.LoadConfigurationFromFile", "nodes/list.go:List.UnmarshalJSON", "nodes/list.go:List.All"]}
{"id": "C46", "title": "A report changes exactly the state it describes", "statement": "Processing a switch, level or sensor report sets exactly the documented state entries to the reported value, leaves all other entries unchanged, and publishes exactly one update event with the node's id; other report kinds change nothing.", "quantifier": "every node state and report", "why_tests_cant": "all states", "anchors": ["nodes/node.go:Node.ProcessEvent"]}
{"id": "C47", "title": "The alarm flag is a pulse that always ends", "statement": "In every interleaving of reports, the alarm flag is true only while an alarm report's one-second window is open; once all windows are closed it is false and the alarm value is zero; the last non-zero alarm type is remembered. A raised alarm stays raised for its whole window.", "quantifier": "every interleaving of reports and window ends", "why_tests_cant": "overlapping windows", "anchors": ["nodes/node.go:Node.ProcessEvent"]}
{"id": "C48", "title": "A wake-up report releases everyone waiting for the node, and nobody else", "statement": "A goroutine waiting for a node to be awake is released by the next wake-up report (or at once if the node is listening); a wake-up that happens while nobody waits is not remembered.", "quantifier": "every history of waits and reports", "why_tests_cant": "all interleavings", "anchors": ["nodes/node.go:Node.isAwake", "nodes/node.go:Node.ProcessEvent"]}
{"id": "C49", "title": "A node is only reported identified when everything is known", "statement": "In every run of identification, when it finishes the node has protocol info, manufacturer information, endpoints and requested states; each request was sent in that order and every published event carries the node's id.", "quantifier": "every sequence of responses, failures, wake-ups", "why_tests_cant": "unbounded retry histories", "anchors": ["nodes/node.go:Node.Identify"]}
{"id": "C50", "title": "An identified node keeps the command classes the device database lists for it", "statement": "When identification finishes on a device found in the database, the node's command classes include the database's classes for it.", "quantifier": "every run of identification", "why_tests_cant": "the loss happens on the second loop pass only", "anchors": ["nodes/node.go:Node.Identify"]}
{"id": "C51", "title": "Identification completes once the device answers", "statement": "From every state identification can reach, a bounded number of successful answers and wake-ups leads to completion; failures only delay it.", "quantifier": "every reachable state", "why_tests_cant": "all failure histories", "anchors": ["nodes/node.go:Node.Identify", "nodes/request_endpoints.go:Node.RequestEndpoints", "nodes/request_states.go:Node.RequestStates"]}
{"id": "C52", "title": "A sleeping node is only contacted after it woke up", "statement": "In every run of identification, each radio request to a non-listening node is preceded by a wake-up report that came after the previous stage's request.", "quantifier": "every run", "why_tests_cant": "all schedules of wake-ups and answers", "anchors": ["nodes/node.go:Node.Identify", "nodes/node.go:Node.isAwake"]}
{"id": "C53", "title": "The node list is a map from id to the last added node", "statement": "After any sequence of Add, Get(id) returns the last node added with that id and nil if there was none; All lists each id once.", "quantifier": "every sequence of operations", "why_tests_cant": "unbounded histories", "anchors": ["nodes/list.go:List.Add", "nodes/list.go:List.Get", "nodes/list.go:List.All"]}
{"id": "C54", "title": "Reading the node list always returns", "statement": "List.Get and List.All return in every interleaving with Add.", "quantifier": "every interleaving", "why_tests_cant": "needs the reader to copy the lock at one particular moment", "anchors": ["nodes/list.go:List.Get", "nodes/list.go:List.All", "nodes/list.go:List.Add"]}
{"id": "C55", "title": "A device lookup returns the device with exactly those ids, or nothing", "statement": "For all 16-bit manufacturer, type and product ids, the database lookup by their rendered ids returns a device carrying those same ids, or nil; every one of the devices is reachable by exactly one id triple.", "quantifier": "all 2^48 id triples", "why_tests_cant": "cannot enumerate the triples", "anchors": ["database/devices.go:New", "commands/reports/manufacturer_specific.go:NewManufacturerSpecific"]}
{"id": "C56", "title": "The mandatory class lookup is a function of (generic, specific)", "statement": "For every pair of bytes GetMandatoryCommandClasses returns the unique table entry for the pair, whatever the map iteration order, and nil if there is none.", "quantifier": "all 65536 pairs and all iteration orders", "why_tests_cant": "iteration order is random", "anchors": ["database/commandclasses.go:GetMandatoryCommandClasses", "database/mandatory.go:definitions"]}
{"id": "C57", "title": "The generated mandatory table is what the generator produces from the specification text", "statement": "Running the generator on mandatory.txt yields exactly the table in mandatory.go.", "quantifier": "the whole committed table", "why_tests_cant": "regeneration is not part of the tests", "anchors": ["generators/commandclasses/commandclasses.go:main", "database/mandatory.txt", "database/mandatory.go"]}
{"id": "C58", "title": "The recording converter outputs every recorded byte, in order, per direction", "statement": "For every recording, the concatenation of the converter's rows of one direction is the concatenation of the recorded data of that direction.", "quantifier": "every recording", "why_tests_cant": "unbounded recordings; the loss is at the end", "anchors": ["cmd/serialrecordingtohex/serialrecordingtohex.go:logRowCombiner.combine", "cmd/serialrecordingtohex/serialrecordingtohex.go:main"]}
{"id": "C59", "title": "The serial recorder logs every read and write exactly once", "statement": "In every schedule the log is a sub-multiset of the operations performed, and once all logging goroutines have run it is a permutation of them. The log is in operation order.", "quantifier": "every schedule of the logging goroutines", "why_tests_cant": "all schedules", "anchors": ["serialrecorder/serialrecorder.go:serialRecorder.Read", "serialrecorder/serialrecorder.go:serialRecorder.Write", "serialrecorder/serialrecorder.go:serialRecorder.logWriter"]}
{"id": "C60", "title": "Each command class name in the specification text maps to its own class", "statement": "The generator maps 'Multichannel Association ...' to the multi-channel association class, not to plain association; every recognised text maps to the class it names.", "quantifier": "every text line", "why_tests_cant": "all strings", "anchors": ["generators/commandclasses/commandclasses.go:StringToByte"]}
{"id": "C61", "title": "Names printed for functions and command classes identify them", "statement": "ZWaveFunction.String and ZWaveCommand.String never give two different codes the same non-empty name, and every exported constant prints its own name.", "quantifier": "all byte codes", "why_tests_cant": "all pairs", "anchors": ["serialapi/types.go:ZWaveFunction.String", "commands/constants.go:ZWaveCommand.String"]}
{"id": "C62", "title": "Alarm reports expose their fields, and short ones are zero-filled, never misread", "statement": "An alarm payload of 6 or more bytes gives type, level, sensor source, status, sensor type and event from bytes 0..5 in that order; one of 2 to 5 bytes gives type and level and zero for everything else; fewer than 2 bytes is an error. The raw payload is kept verbatim.", "quantifier": "every payload", "why_tests_cant": "all payload lengths and contents", "anchors": ["commands/reports/alarm.go:NewAlarm"]}
{"id": "C63", "title": "Whether a frame answers a request depends only on that frame", "statement": "For every pending request and every received frame, the decision whether the frame answers the request is the same whatever bytes follow the frame in the receive buffer.", "quantifier": "every request, every frame, every following bytes", "why_tests_cant": "pairs of frames and buffer contents", "anchors": ["connection.go:Match", "connection.go:Reader"]}
{"id": "C64", "title": "The issuer of a request always obtains the reply channel of its request", "statement": "In every run, the call that sends a command and waits returns the channel on which the answer (or the close) will arrive; it never returns a nil channel, on which a receiver would block forever.", "quantifier": "every interleaving of caller, writer, reader and timers", "why_tests_cant": "needs the answer to overtake the issuer", "anchors": ["connection.go:WriteAndWait", "connection.go:WriteAndWaitForReport", "connection.go:Close"]}
{"id": "C65", "title": "A control byte and the following frame may arrive in one read", "statement": "If a control byte (ACK, NAK, CAN) and bytes of the next frame are read together while a command awaits its result, the process does not crash.", "quantifier": "every read boundary", "why_tests_cant": "tests deliver control bytes alone", "anchors": ["connection.go:Reader", "serialapi/message.go:Decode", "serialapi/message.go:NewMessage"]}
{"id": "C66", "title": "Reports handed to the application come from intact frames only", "statement": "In every run, each report callback belongs to a complete frame with a correct checksum that was received and that carries exactly this report and sender.", "quantifier": "every execution, every byte stream", "why_tests_cant": "needs stray bytes behind a control byte in the same read", "anchors": ["connection.go:Reader", "serialapi/message.go:Decode"]}
{"id": "C67", "title": "A level report that says 'unknown' leaves the known level alone", "statement": "A multilevel report whose value is 0xFE (unknown) does not change the node's level or on state.", "quantifier": "every node state", "why_tests_cant": "needs a device that reports 0xFE", "anchors": ["commands/reports/switch_multilevel.go:NewSwitchMultilevelV1", "nodes/node.go:ProcessEvent"]}
{"id": "C68", "title": "The node list is not read while it is being changed", "statement": "In every interleaving, no Get, All or MarshalJSON looks at the list's map while an Add is changing it, and two Adds never overlap.", "quantifier": "every interleaving", "why_tests_cant": "a data race shows up only under load", "anchors": ["nodes/list.go:Add", "nodes/list.go:Get", "nodes/list.go:All"]}
{"id": "C69", "title": "Processing a report never crashes the process", "statement": "For every node, however it was created, and every history of reports and alarm windows, ProcessEvent returns.", "quantifier": "every node, every history", "why_tests_cant": "needs a configuration file without state maps", "anchors": ["nodes/node.go:ProcessEvent", "nodes/node.go:New"]}
{"id": "C70", "title": "Blank lines after the specification text do not change the generated table", "statement": "Running the mandatory-class generator on a text gives the same table as running it on that text with a blank line appended.", "quantifier": "every text", "why_tests_cant": "the committed text happens to end with a blank line", "anchors": ["generators/commandclasses/commandclasses.go:main"]}
{"id": "C71", "title": "Identification does not depend on a device supporting endpoints", "statement": "During identification only nodes that list the multi-channel command class are asked for their endpoints, so a node without it can be identified.", "quantifier": "every run of identification", "why_tests_cant": "all device types; needs a device that ignores the endpoint request", "anchors": ["nodes/node.go:Node.Identify", "nodes/request_endpoints.go:Node.RequestEndpoints"]}
{"id": "C72", "title": "Nodes are discovered even if the first discovery request is not answered", "statement": "If the controller does not answer the request for the node list in time, or answers with something else, discovery is attempted again, at the latest after the next connection, so that active nodes appear eventually.", "quantifier": "every run", "why_tests_cant": "needs a lost answer at one particular moment", "anchors": ["controller.go:Controller.getNodes", "gozwave.go:ConnectWithCustomPortOpener"]}
{"id": "C73", "title": "A report for a known node never crashes the process", "statement": "At every moment, also while discovery is running, a report delivered for any node in the list is processed without a crash.", "quantifier": "every interleaving of discovery and reports", "why_tests_cant": "needs a report in the window between adding a node and setting it up", "anchors": ["controller.go:Controller.initNode", "controller.go:Controller.DeliverReportToNode", "nodes/node.go:Node.pushEvent"]}
{"id": "C74", "title": "A failed Connect leaves the port alone", "statement": "After ConnectWithCustomPortOpener returned an error the port is not opened again.", "quantifier": "every run", "why_tests_cant": "needs a port that appears after the failure", "anchors": ["gozwave.go:ConnectWithCustomPortOpener", "connection.go:Connect"]}
{"id": "C75", "title": "Connect succeeds only with an open port", "statement": "When ConnectWithCustomPortOpener returns without error the port is open.", "quantifier": "every run", "why_tests_cant": "needs the port to fail within 200 ms of being opened", "anchors": ["gozwave.go:ConnectWithCustomPortOpener", "connection.go:Connect"]}
{"id": "C76", "title": "A recording holds the bytes as they were transferred", "statement": "What the recorder logs for a read or write is what was transferred, whatever the caller does with its buffer afterwards.", "quantifier": "every schedule and every use of buffers", "why_tests_cant": "a data race with the caller", "anchors": ["serialrecorder/serialrecorder.go:serialRecorder.Read", "serialrecorder/serialrecorder.go:serialRecorder.writeToLog"]}
{"id": "C77", "title": "A recording can be read back", "statement": "The converter decodes every recording, also one during which the port was opened again.", "quantifier": "every schedule", "why_tests_cant": "needs a reconnection during the recording", "anchors": ["serialrecorder/serialrecorder.go:serialRecorder.Open", "serialrecorder/serialrecorder.go:serialRecorder.logWriter", "cmd/serialrecordingtohex/serialrecordingtohex.go:main"]}
{"id": "C78", "title": "Everything a node learns can be saved", "statement": "Whatever reports and answers arrive, in whatever order, a node created for a device or loaded from the configuration can be written to the configuration file: all numbers are finite, all texts valid. (A number that is not finite would leave an empty file.)", "quantifier": "every history of reports and identification steps", "why_tests_cant": "depends on every value a sensor can send and every entry of the device table", "anchors": ["controller.go:Controller.SaveConfigurationToFile", "nodes/node.go:Node.ProcessEvent", "nodes/node.go:Node.Identify", "commands/reports/sensor_multi_level.go:NewSensorMultiLevel"]}
{"id": "C79", "title": "A save that did not store the configuration says so", "statement": "SaveConfigurationToFile returns an error if the file could not be created or written completely.", "quantifier": "every failure point", "why_tests_cant": "needs a full disk or missing permissions", "anchors": ["controller.go:Controller.SaveConfigurationToFile"]}
{"id": "C80", "title": "A configuration that loads gives nodes that can be used", "statement": "After LoadConfigurationFromFile returned without error, HasCommand on every loaded node returns.", "quantifier": "every JSON document", "why_tests_cant": "needs a null in a list of command classes", "anchors": ["controller.go:Controller.LoadConfigurationFromFile", "nodes/node.go:Node.HasCommand"]}
{"id": "C81", "title": "A decoded message says what the bytes of its frame say", "statement": "For every complete frame, whatever follows it in the buffer, Decode consumes exactly the frame and gives a message with start byte 1, length byte 1, type byte 2 and function byte 3 of the frame. For function 4 the sender is byte 5 and the payload is the report decoded from the class, command and data that byte 6 announces; for function 2 the node list so announced; for function 0x41 the protocol info after byte 3; any other function is reported as not implemented, with no message. A control byte (ACK, NAK, CAN) alone gives a message of just this byte.", "quantifier": "every frame, every following bytes, every control byte", "why_tests_cant": "all frame contents and all combinations of function and payload length", "anchors": ["serialapi/message.go:Decode", "serialapi/message.go:NewMessage", "serialapi/application_command_handler.go:NewApplicationCommandHandler"]}
{"id": "C82", "title": "The pending requests are not iterated over while one is added or removed", "statement": "In every interleaving of commands being sent, timeouts and received bytes, no goroutine looks at the table of pending requests while another one changes it. (The Go runtime stops the process when it notices a concurrent map iteration and map write.)", "quantifier": "every number of writers and timers, every sequence of received control bytes and frames, every schedule", "why_tests_cant": "the runtime notices the overlap only by chance", "anchors": ["connection.go:Reader", "connection.go:Writer", "connection.go:timeoutWorker"]}
{"id": "C83", "title": "Saving does not read a node's state while a report changes it", "statement": "In every interleaving of reports for a node and saves of the configuration, the maps with the node's state are not read while they are being changed, and two reports never change them at the same time.", "quantifier": "every number of reports and saves, every schedule", "why_tests_cant": "the runtime notices the overlap only by chance", "anchors": ["controller.go:Controller.SaveConfigurationToFile", "nodes/list.go:List.MarshalJSON", "nodes/node.go:Node.ProcessEvent"]}
{"id": "C84", "title": "A port that is away does not crash the process", "statement": "Whatever the port does (reads fail, opening it again fails any number of times), sending a command does not crash the process.", "quantifier": "every sequence of port failures, commands and timers", "why_tests_cant": "needs a command while the stick is unplugged", "anchors": ["connection.go:Connect", "connection.go:Writer", "gozwave.go:ConnectWithCustomPortOpener"]}
{"id": "C85", "title": "No command is silently lost", "statement": "Every command that a writer takes from the queue is written to the port.", "quantifier": "every sequence of port failures, commands and timers", "why_tests_cant": "needs a command between a failed read and the next successful open", "anchors": ["connection.go:Writer", "connection.go:Reader", "connection.go:Connect"]}
{"id": "C86", "title": "Readings of one sensor type in different scales are not stored under one key", "statement": "If two sensor reports of the same type are stored under the same key, they use the same scale.", "quantifier": "every pair of payloads", "why_tests_cant": "needs a device that reports a scale the code does not know", "anchors": ["commands/reports/sensor_multi_level.go:NewSensorMultiLevel", "nodes/node.go:Node.ProcessEvent"]}
{"id": "C87", "title": "The device table is what the database files say", "statement": "database.New returns for every triple of ids exactly what the first file in database/json that mentions this device says about it (brand, product, description, ids, command classes of its first endpoint), and nothing for a device that no file mentions.", "quantifier": "every triple of texts, every reference of every file", "why_tests_cant": "the table has hundreds of entries and is generated by hand-started tool runs", "anchors": ["database/devices.go:New", "generators/database/database.go:main"]}
{"id": "C88", "title": "A text in the generated source denotes the original text", "statement": "For every label, name or description, the Go string literal that the generator writes denotes exactly this text.", "quantifier": "every text", "why_tests_cant": "needs texts with unusual characters", "anchors": ["generators/database/database.go:escaper", "generators/database/database.go:templ"]}
{"id": "C89", "title": "The generated source compiles to a table of the files", "statement": "For all files with printable texts and alphanumeric ids the generated source compiles, and the resulting table holds each device as the first file that mentions it describes it, and nothing else.", "quantifier": "every list of files", "why_tests_cant": "needs files whose references collide in a particular way", "anchors": ["generators/database/database.go:main", "generators/database/database.go:templ"]}
{"id": "C90", "title": "A device is described as the files that mention it do", "statement": "For every file in database/json and every reference in it, database.New returns a device with the name, description and classes of this file.", "quantifier": "every reference of every file", "why_tests_cant": "only a few of the hundreds of entries are affected", "anchors": ["generators/database/database.go:main", "database/devices.go:New"]}
{"id": "C91", "title": "The classes of a device are those of all its endpoints", "statement": "For every file in database/json, the device that database.New returns lists every command class that the file lists at any endpoint.", "quantifier": "every class of every endpoint of every file", "why_tests_cant": "only multi-endpoint devices are affected", "anchors": ["generators/database/database.go:main", "database/devices.go:New"]}
{"id": "C92", "title": "Every received report shows in the node's state", "statement": "After all reports received from a node have been processed, and if the application changed nothing about the node meanwhile, the node shows what the last received report of each kind said, nothing else about it changed, and the application was notified once per report.", "quantifier": "every execution, every node, every sequence of reports received from it", "why_tests_cant": "each report is processed in its own goroutine, and the order in which they run is not controllable in a test", "anchors": ["connection.go:Connection.Reader", "controller.go:Controller.DeliverReportToNode", "nodes/node.go:Node.ProcessEvent"]}
{"id": "C93", "title": "Nodes appear only from the configuration or from a received node list", "statement": "At any moment of an execution in which every received frame contains all the data it announces, every node that Nodes returns was in the configuration file or is named, with an id of at least 2, by a node list received from the stick.", "quantifier": "every execution, every known node", "why_tests_cant": "needs every interleaving of received frames, requests and discovery", "anchors": ["controller.go:Controller.getNodes", "controller.go:Controller.initNode", "serialapi/discovery_nodes.go:NewDiscoverdNodes"]}
{"id": "C94", "title": "Every listed node becomes known", "statement": "When discovery has ended, every node other than the controller that a received node list names is returned by Nodes and was interrogated.", "quantifier": "every execution, every received node list, every node in it", "why_tests_cant": "depends on whether the list arrives before the deadline of the request", "anchors": ["controller.go:Controller.getNodes", "connection.go:Connection.WriteWithTimeout", "connection.go:Connection.timeoutWorker"]}
{"id": "C95", "title": "A received frame reaches every request it answers, and no other", "statement": "When a frame of at least ten bytes is received, the requests that were sent and not yet answered and that end because of it are exactly those it answers, by the rule for the request's function or by the report the request waits for. Each of them whose caller is waiting receives the message.", "quantifier": "every execution, every frame of at least ten bytes, every outstanding request", "why_tests_cant": "several requests outstanding at the moment of one frame cannot be arranged reliably in a test", "anchors": ["connection.go:Connection.Reader", "connection.go:sendPackage.Match"]}
{"id": "C96", "title": "Every issued command is written once the port has been opened", "statement": "While a command is waiting and the port was opened at least once, some writing goroutine can go on, whatever arrives or fails to arrive; and the command at place k of the queue is handed to the port after at most 2n+3k+1 steps of the writing goroutines, n being the number of times the port was opened.", "quantifier": "every execution, every waiting command", "why_tests_cant": "a test cannot show that no combination of lost acknowledgements, reconnects and timeouts stops the queue", "anchors": ["connection.go:Connection.Writer", "connection.go:Connection.Write", "connection.go:Connection.Connect"]}
{"id": "C97", "title": "An accepted frame was received", "statement": "The bytes of every frame that is accepted and acknowledged were received in one piece: next to each other, in this order, with no reconnect and no pause of more than 40 ms inside.", "quantifier": "every execution, every accepted frame", "why_tests_cant": "the failing inputs are noise in front of a damaged frame with a particular relation to its bytes", "anchors": ["connection.go:Connection.Reader", "serialapi/message.go:Decode"]}
{"id": "C98", "title": "Events name nodes that exist", "statement": "Whenever the application receives an event, Nodes.Get with the address of the event returns a node, and the node has this id. So the loop of the example program, which uses the result without a check, does not crash on any event.", "quantifier": "every configuration file, every execution, every event", "why_tests_cant": "needs every interleaving of discovery, reports and reading of events", "anchors": ["controller.go:Controller.pushEvent", "controller.go:Controller.GetNextEvent", "controller.go:Controller.initNode", "zwave-example/example.go:main"]}
{"id": "C99", "title": "The web server of the example does what it answers", "statement": "A request for /nodes/ID is answered with 200 if ID is a decimal number that names a known node, 404 if it names none and 500 if it is not a 64 bit decimal number. /nodes/ID/ACTION is answered likewise, with 404 for actions other than on and off; on and off send one switch command to this node, and nothing else is ever sent.", "quantifier": "every pair of path segments, every state of the controller", "why_tests_cant": "every text must be considered as a number, and nodes with every combination of command classes", "anchors": ["zwave-example/example.go:getNode", "zwave-example/example.go:control", "nodes/commands.go:Node.On", "nodes/commands.go:Node.Off"]}
{"id": "C100", "title": "What a node is shown to be is what it said", "statement": "At any moment, the product ids of a node are those of the configuration file or those of a manufacturer report received from this very node after it was asked for it; brand, product and description are then those the device database has for these ids. A node whose product is not known has the names of the file, or none.", "quantifier": "every execution in which every received frame contains all the data it announces, every node", "why_tests_cant": "needs every interleaving of several identifications, reports of other nodes, lost frames and timeouts", "anchors": ["nodes/node.go:Node.Identify", "nodes/manufacurer_specific.go:Node.RequestManufacturerSpecific", "connection.go:Connection.WriteAndWaitForReport", "connection.go:Connection.Reader"]}
{"id": "C101", "title": "The type of a device is used for the node that was asked", "statement": "An answer that says the type of a device is used for one node, the one it was asked for.", "quantifier": "every execution in which every received frame contains all the data it announces, every node", "why_tests_cant": "needs two nodes asked at the same time", "anchors": ["nodes/protocol_info.go:Node.RequestProtocolInfo", "connection.go:sendPackage.Match", "controller.go:Controller.getNodes"]}
{"id": "C102", "title": "An identified node has told everything about itself", "statement": "A node that is shown as identified and was not in the configuration file has been asked for its type, its product and its endpoints, and each of the three was in a frame received after the question; its endpoints are those of the last kind of frame, or none if its type has no command classes.", "quantifier": "every execution in which every received frame contains all the data it announces, every node", "why_tests_cant": "needs every interleaving of several identifications, reports of other nodes, lost frames and timeouts", "anchors": ["nodes/node.go:Node.Identify", "nodes/request_endpoints.go:Node.RequestEndpoints", "nodes/request_states.go:Node.RequestStates", "connection.go:Connection.Reader"]}
{"id": "C103", "title": "No question of an identification waits for ever", "statement": "Whenever the identification of a node waits for an answer, the answer or the timeout of the request lets it go on.", "quantifier": "every execution, every node that is being identified", "why_tests_cant": "the wait never ends only if the answer overtakes the caller between two statements", "anchors": ["connection.go:Connection.WriteWithTimeout", "connection.go:Connection.WriteAndWaitForReport", "connection.go:Connection.timeoutWorker", "nodes/node.go:Node.Identify"]}
{"id": "C104", "title": "The configuration file does not bring the program down", "statement": "Whatever the configuration file holds, and whoever wrote it, a running program that saves to it goes on.", "quantifier": "every execution with starts, kills, saves and edits of the file by others; every content of the file", "why_tests_cant": "the contents that do harm are unusual documents that appear while the program runs, between two saves", "anchors": ["controller.go:Controller.SaveConfigurationToFile", "controller.go:Controller.loadConfigurationFromFile", "controller.go:Controller.LoadConfigurationFromFile", "nodes/list.go:List.UnmarshalJSON"]}
{"id": "C105", "title": "Everything the program saves can be loaded", "statement": "Whenever the program saves, with whatever nodes it knows at that moment, the text can be produced, the program can be started with it, and every start with it knows the same nodes with the same ids, names, products, classes, endpoints and states, marked as not yet identified.", "quantifier": "every execution with starts, kills, saves and edits of the file by others, every save in it", "why_tests_cant": "the states of nodes come from any bytes a device may send and from any file loaded before", "anchors": ["controller.go:Controller.SaveConfigurationToFile", "controller.go:Controller.LoadConfigurationFromFile", "nodes/node.go:Node.ProcessEvent", "gozwave.go:ConnectWithCustomPortOpener"]}
{"id": "C106", "title": "Saved nodes survive", "statement": "Once a save has returned without an error, and if nobody else writes the file, a program started later knows the nodes of that save or of a later one.", "quantifier": "every execution with starts, kills and saves", "why_tests_cant": "the kill must fall between the creation of the file and the end of writing", "anchors": ["controller.go:Controller.SaveConfigurationToFile", "controller.go:Controller.saveDebouncer", "gozwave.go:ConnectWithCustomPortOpener"]}
{"id": "C107", "title": "A start knows one saved state as a whole, or nothing", "statement": "If nobody else writes the file, the nodes known after a start are none, or those of one save as a whole, or, if the file was never created anew, those of the file at first. They are never part of a save or mixed from two.", "quantifier": "every execution with starts, kills and saves, every start in it", "why_tests_cant": "a kill may cut the file after any byte", "anchors": ["controller.go:Controller.SaveConfigurationToFile", "controller.go:Controller.LoadConfigurationFromFile", "gozwave.go:ConnectWithCustomPortOpener"]}
{"id": "C108", "title": "An answer is used", "statement": "Whenever the identification of a node waits for its type, its product or its endpoints, and a frame with such an answer (for product and endpoints: from this node) is received, the identification goes on and the node then has the type, the product or the endpoints that are in the frame.", "quantifier": "every execution, every node, every frame that contains all the data it announces; everybody who was given a channel receives from it within a second", "why_tests_cant": "needs every state of the connection and of the other identifications at the moment the answer arrives", "anchors": ["nodes/node.go:Node.Identify", "nodes/protocol_info.go:Node.RequestProtocolInfo", "nodes/manufacurer_specific.go:Node.RequestManufacturerSpecific", "nodes/request_endpoints.go:Node.RequestEndpoints", "connection.go:Connection.WriteAndWaitForReport", "connection.go:Connection.Reader", "connection.go:sendPackage.Match"]}
{"id": "C109", "title": "Printed alarms, products and endpoints name their values", "statement": "The text of an alarm report, of a product report and of an endpoint report contains a field with the value of every part of the payload the report has, in hexadecimal, as true or false, or in decimal, and an alarm without the long part shows no fields for it.", "quantifier": "every accepted payload", "why_tests_cant": "the tests print one short and one long alarm", "anchors": ["commands/reports/alarm.go:Alarm.String", "commands/reports/manufacturer_specific.go:ManufacturerSpecific.String", "commands/reports/multi_instance_endpoint.go:MultiChannelEndpoints.String"]}
{"id": "C110", "title": "Printed switch reports show state, target and duration", "statement": "The text of a switch report shows the state that was reported: on or off, or the level in percent; it shows unknown if the report says that the state is unknown. If the report has a target and a duration, it shows these too.", "quantifier": "every accepted payload", "why_tests_cant": "the unknown state of the on/off report is one value of 256 and is not among the tested ones", "anchors": ["commands/reports/switch_binary.go:SwitchBinaryV1.String", "commands/reports/switch_binary.go:SwitchBinaryV2.String", "commands/reports/switch_multilevel.go:SwitchMultilevelV1.String", "commands/reports/switch_multilevel.go:SwitchMultilevelV4.String", "commands/duration.go:Duration.String"]}
{"id": "C111", "title": "Printed sensor readings are right to half a millionth", "statement": "The number in the text of a sensor report differs from the transmitted reading by at most half a millionth, and not at all if the reading has at most six decimals. Texts of readings of different types or in different units differ.", "quantifier": "every payload with a value of 1, 2 or 4 bytes, every number of decimals, every type and scale", "why_tests_cant": "2^32 values times eight precisions; the reading passes through a division of doubles and a rounding to decimals", "anchors": ["commands/reports/sensor_multi_level.go:SensorMultiLevel.String", "commands/reports/sensor_multi_level.go:NewSensorMultiLevel"]}
{"id": "C112", "title": "A node that answers is identified", "statement": "If the identification of a node waits for its type, then answers with its type, its product and its endpoints (and, if it does not listen all the time, its wake-up) are enough: the program can go on, receiving nothing else and without a step of any other identification, until this one returns; the node is then identified and has the type that was answered, the product and the endpoints it had before or those that were answered.", "quantifier": "every reachable state of the program, whatever the other identifications and commands are doing, every node, every such answer", "why_tests_cant": "the tests identify no node through a connection; this needs the whole program and every state it can be in when the answers come", "anchors": ["nodes/node.go:Node.Identify", "nodes/node.go:Node.isAwake", "nodes/protocol_info.go:Node.RequestProtocolInfo", "nodes/manufacurer_specific.go:Node.RequestManufacturerSpecific", "nodes/request_endpoints.go:Node.RequestEndpoints", "connection.go:Connection.Writer", "connection.go:Connection.Reader", "controller.go:Controller.DeliverReportToNode"]}
{"id": "C113", "title": "An identification can always come to its end", "statement": "As long as the program runs and the identification of a node has not returned, there is a way to go on, in which only answers and a wake-up of this node are received and no other identification makes a step, that ends with the node identified and keeps what was known about it.", "quantifier": "every reachable state of the program, every node, every content of the answers", "why_tests_cant": "whether a wait can still be ended depends on the order in which the connection and the identification ran before", "anchors": ["nodes/node.go:Node.Identify", "nodes/node.go:Node.isAwake", "nodes/node.go:Node.ProcessEvent", "connection.go:Connection.WriteAndWaitForReport", "connection.go:Connection.Writer", "connection.go:Connection.Reader"]}
{"id": "C114", "title": "Parameters of a device are those of its file", "statement": "A device found in the database has the configuration parameters of the first file that mentions it: the same parameters in the same order, each with its name, its size, its number, and the named values of the file, or its range if the file names no values. The same holds of the table generated from any files whose numbers fit into 64 bits and whose texts can stand in a source file.", "quantifier": "every lookup in the committed table, every committed file; every set of files the generator accepts", "why_tests_cant": "5084 parameters in 706 generated functions; no test looks at them", "anchors": ["generators/database/database.go:main", "generators/database/database.go:templ", "generators/database/database.go:parameter", "database/devices.go:New"]}
{"id": "C115", "title": "The table allows the values of a parameter that its file allows", "statement": "A value that a file allows for a parameter, because it lies in its range or is one of the named values, is among the values the table gives for this parameter; in particular the default value is.", "quantifier": "every device of the committed files, every parameter, every value", "why_tests_cant": "quantifies over all values of all parameters of all devices", "anchors": ["generators/database/database.go:templ", "generators/database/database.go:parameter", "database/devices.go:New"]}
{"id": "C116", "title": "All nodes of a network can be identified", "statement": "If identifications of any number of nodes have been started and none has done anything yet, and each of these nodes answers the questions for its type, its product and its endpoints (and, if it does not listen all the time, tells that it wakes up), then the program can go on, receiving nothing but these answers, until all of them have returned; each node is then identified, keeps what was known about it, and for the rest has what its own answers told, although an answer with a type does not name the node.", "quantifier": "every reachable state of the program that has not crashed and reads, every set of nodes, every set of answers", "why_tests_cant": "identifications share one connection, and an answer with a type is taken by every identification that waits for one; the claim is about every number of nodes and every state before", "anchors": ["nodes/node.go:Node.Identify", "controller.go:Controller.getNodes", "nodes/protocol_info.go:Node.RequestProtocolInfo", "nodes/manufacurer_specific.go:Node.RequestManufacturerSpecific", "nodes/request_endpoints.go:Node.RequestEndpoints", "connection.go:Connection.Writer", "connection.go:Connection.Reader"]}
{"id": "C117", "title": "From the start of the program to an identified network", "statement": "If the controller acknowledges the question for the nodes and answers it with a list, and every listed node (other than node 1) answers as in C116, then the program, started with any configuration, can run until all of them are identified, receiving nothing but the acknowledgement, the list and the answers; the nodes then have what the configuration said and for the rest what they answered, and the program has not crashed.", "quantifier": "every configuration, every node list, every set of listed nodes, every set of answers", "why_tests_cant": "needs connection, discovery and all identifications together, for every number of nodes", "anchors": ["gozwave.go:ConnectWithCustomPortOpener", "controller.go:Controller.getNodes", "nodes/node.go:Node.Identify", "connection.go:Connection.Connect", "connection.go:Connection.Writer", "connection.go:Connection.Reader", "serialapi/message.go:Decode", "serialapi/discovery_nodes.go:NewDiscoverdNodes"]}
{"id": "C118", "title": "What is known about a node stays known", "statement": "Whatever happens after a moment, a node known at that moment is still known later, under the same id, and nothing of the following is forgotten or changed once it is known: its type and with it whether it listens, its product and with it brand, product name and description, its endpoints; that its states were asked for and that it is identified are not taken back. Entries of its state may change their value but never disappear. (The command classes are not among this: C50.)", "quantifier": "every two moments of every execution of the program, every node", "why_tests_cant": "answers that come late, twice or for several nodes at once, reports and alarms may all write to the same node; the claim is about every order of them", "anchors": ["nodes/node.go:Node.Identify", "nodes/node.go:Node.ProcessEvent", "nodes/request_endpoints.go:Node.RequestEndpoints", "nodes/request_states.go:Node.RequestStates", "controller.go:Controller.getNodes", "controller.go:Controller.DeliverReportToNode", "nodes/list.go:List.Add"]}
{"id": "C119", "title": "What is known is not asked for again", "statement": "Every command that the identification of a node sends is a question to this node, for its type, its product, its endpoints or its states, and what is asked for was not known at any earlier moment; in particular a node is not asked for what the configuration file told about it, and for nothing at all once its identification is through.", "quantifier": "every two moments of every execution of the program, every node", "why_tests_cant": "a negative statement about everything that is sent in all executions", "anchors": ["nodes/node.go:Node.Identify", "nodes/protocol_info.go:Node.RequestProtocolInfo", "nodes/manufacurer_specific.go:Node.RequestManufacturerSpecific", "nodes/request_endpoints.go:Node.RequestEndpoints", "nodes/request_states.go:Node.RequestStates", "controller.go:Controller.LoadConfigurationFromFile"]}
{"id": "C120", "title": "Whoever follows the events is up to date", "statement": "An application that looks at a node, and later has received no update event about this node and has none waiting, would see the node as it was: same id, same type and product, same names, endpoints, states and command classes.", "quantifier": "every two moments of every execution of the program, every node", "why_tests_cant": "every change in reports, alarms and identification must publish an event, and the events of all nodes share one bounded queue", "anchors": ["nodes/node.go:Node.ProcessEvent", "nodes/node.go:Node.Identify", "nodes/request_endpoints.go:Node.RequestEndpoints", "controller.go:Controller.pushEvent", "controller.go:Controller.getNodes", "controller.go:Controller.GetNextEvent"]}
{"id": "C121", "title": "When no save is due, the configuration file is current", "statement": "If a configuration file is used, and no save is running, scheduled or asked for, then all known nodes are in the file, as they are; \"in the file\" means in the list that was last handed to the save or, if there was no save yet, in the file that was loaded.", "quantifier": "every execution of the program, every moment, every node", "why_tests_cant": "relates every change to the state of the goroutine that delays saves, in all interleavings", "anchors": ["nodes/node.go:Node.ProcessEvent", "nodes/node.go:Node.Identify", "controller.go:Controller.pushEvent", "controller.go:Controller.saveDebouncer", "controller.go:Controller.getNodes", "controller.go:Controller.SaveConfigurationToFile", "controller.go:Controller.LoadConfigurationFromFile"]}
{"id": "C122", "title": "A node is announced once, before anything else is told about it", "statement": "Each node in the list was in the configuration file, or a \"node discovered\" event has been published for it exactly once, or this is the next thing discovery does. No \"node updated\" event is published about a node that is not in the file before its \"node discovered\" event. Nodes of the file are not announced again by discovery.", "quantifier": "every configuration file, every execution up to a crash, every node, every event", "why_tests_cant": "reports and discovery run concurrently; a report may arrive between adding and announcing a node", "anchors": ["controller.go:Controller.getNodes", "controller.go:Controller.initNode", "controller.go:Controller.pushEvent", "controller.go:Controller.DeliverReportToNode", "nodes/node.go:Node.ProcessEvent"]}
