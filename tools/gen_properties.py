#!/usr/bin/env python3
# Writes /verif/properties.jsonl. Kept as a script so the list can be extended in one place.
import json, os
P = []
def p(id, title, statement, quantifier, why, anchors):
    P.append(dict(id=id, title=title, statement=statement, quantifier=quantifier,
                  why_tests_cant=why, anchors=anchors))

# ---------------------------------------------------------------- serial framing
p("C01", "CompileMessage emits a well-formed request frame carrying exactly the payload",
  "For every payload of at most 253 bytes, CompileMessage returns SOF, the exact length byte, type 0x00 (request), the payload unchanged, and the one checksum byte that makes the XOR of everything after SOF equal 0xFF; two different payloads never give the same frame. For longer payloads the length byte no longer describes the frame.",
  "every payload byte string of every length", "payload space is unbounded; the tests compile one 2-byte payload",
  ["serialapi/message.go:CompileMessage", "serialapi/message.go:GenerateChecksum"])
p("C02", "Decode classifies every buffer exactly by the framing grammar and always makes progress",
  "On every non-empty buffer Decode, when it returns, reports one of: 'need more' (a length greater than the buffer, iff the buffer starts with SOF and is shorter than its announced frame), 'reject' (-1, iff the first byte is no start byte, or a complete frame fails its checksum), 'control' (1, iff first byte is ACK/NAK/CAN), or 'frame' (announced length + 2, no larger than the buffer, iff a complete frame has a correct checksum). It never reports 0, so a reader that follows it can never spin.",
  "every non-empty byte buffer with every spare capacity", "all 256^n buffers; tests try fourteen",
  ["serialapi/message.go:Decode"])
p("C03", "A frame damaged in any single byte is rejected",
  "If Decode accepts a complete frame, then changing any one byte between the length byte (exclusive) and the checksum byte (inclusive) to any other value makes Decode reject it.",
  "every accepted frame, every byte position after the length byte, every replacement value", "pairs of frames and corruptions cannot be enumerated",
  ["serialapi/message.go:Decode", "serialapi/message.go:GenerateChecksum"])
p("C04", "Decode never crashes on bytes received from the serial line",
  "Whatever bytes arrive, Decode returns (possibly with an error) rather than panicking.",
  "every byte buffer, every spare capacity", "a crash needs one particular byte pattern out of all; fuzzing only samples",
  ["serialapi/message.go:Decode", "serialapi/message.go:NewMessage", "serialapi/discovery_nodes.go:NewDiscoverdNodes", "serialapi/application_command_handler.go:NewApplicationCommandHandler"])
p("C05", "Decode does not modify the caller's buffer",
  "After Decode returns, the bytes of the slice that was passed in are what they were before.",
  "every byte buffer", "a test that compares only return values never sees the write-through of append",
  ["serialapi/message.go:Decode"])
p("C06", "The decoded message depends only on the frame's own bytes",
  "If a complete frame is at the front of the buffer, Decode's result is the same whatever bytes follow it in the buffer and whatever lies in the buffer's spare capacity.",
  "every frame, every suffix, every spare capacity", "quantifies over two unbounded byte strings",
  ["serialapi/message.go:Decode", "serialapi/message.go:NewMessage"])
p("C07", "How the byte stream is split into reads does not change the messages received",
  "For a stream made of complete self-contained frames, every way of cutting the stream into read chunks (with less than 40ms between chunks) makes the reader produce the same sequence of decoded messages, one per frame, in order, and leave an empty buffer.",
  "every sequence of well-formed frames and every chunking of its bytes", "the number of chunkings is exponential in the stream length",
  ["connection.go:Connection.Reader", "serialapi/message.go:Decode"])
p("C08", "The reader resynchronises on the next frame after line noise",
  "If arbitrary noise bytes precede a complete well-formed frame in the buffer, the frame is still recognised and delivered.",
  "every noise string, every well-formed frame", "unbounded noise; the failing noise patterns are rare",
  ["connection.go:Connection.Reader", "serialapi/message.go:Decode"])
p("C09", "The reader's inner loop always terminates and accounts for every byte",
  "For every buffer the reader's inner loop stops after at most as many iterations as there are bytes, and, unless it crashes, the bytes it consumed followed by the bytes left in the buffer are exactly as many as were there; what is left is empty or an incomplete frame.",
  "every buffer content", "termination for all inputs cannot be observed by running",
  ["connection.go:Connection.Reader"])
p("C10", "Every received frame is acknowledged exactly once, and nothing else is",
  "In every run, the reader writes one ACK byte (0x06) to the stick per complete checksum-correct frame taken from the buffer, and none for control bytes, rejected bytes or incomplete frames.",
  "every execution (interleaving, byte stream, chunking)", "quantifies over all schedules and streams",
  ["connection.go:Connection.Reader"])
p("C11", "Every decoded application report is handed to the report callback once, in order, with the sender's node id",
  "In every run, the report callback is invoked once for each application-command frame that decodes, in arrival order, with the node id at offset 5 of that frame and the decoded report; frames that do not decode never invoke it.",
  "every execution", "all byte streams and interleavings",
  ["connection.go:Connection.Reader", "serialapi/message.go:NewMessage", "controller.go:Controller.DeliverReportToNode"])
# ---------------------------------------------------------------- payload decoders
p("C12", "The node bitmap is decoded bit for bit",
  "For a bitmap of 6 to 29 bytes, NewDiscoverdNodes marks node position i active iff bit (i mod 8) of byte (i div 8) is set, and every position beyond the bitmap inactive; shorter bitmaps give an error.",
  "every bitmap byte string", "2^232 bitmaps",
  ["serialapi/discovery_nodes.go:NewDiscoverdNodes"])
p("C13", "Protocol info flags are decoded from the right bits",
  "For every payload of at least 6 bytes NewGetNodeProtocolInfo reports listening=bit7, routing=bit6, version=low three bits+1, max baud 40000 iff bits 3-5 are 010 else 9600 of byte 0; FLIRS iff bit 5 or 6, beaming=bit4, security=bit0 of byte 1; basic, generic, specific = bytes 3,4,5; shorter payloads give an error and never a partial result.",
  "every payload", "256^6 payloads",
  ["serialapi/get_node_protocolinfo.go:NewGetNodeProtocolInfo"])
p("C14", "Report decoding is total: a report or an error, never both, never a crash",
  "For every command, command class and payload, reports.New returns either a report and no error or an error; it never panics, and the report's kind is determined by (command, class, payload length) exactly as the dispatch table says.",
  "every command byte, class byte and payload of any length", "payload space is unbounded",
  ["commands/reports/report.go:New", "commands/reports/alarm.go:NewAlarm", "commands/reports/wakeup.go:NewWakeUp"])
p("C15", "Switch reports decode to the documented state",
  "Binary V1: on iff the byte is 0xFF, valid iff not 0xFE. Binary V2: current/target on iff non-zero, duration byte verbatim. Multilevel V1/V4: value = min(byte,100), valid iff byte is not 0xFE. All other lengths are errors.",
  "every payload", "all payload bytes and lengths at once",
  ["commands/reports/switch_binary.go:NewSwitchBinaryV1", "commands/reports/switch_binary.go:NewSwitchBinaryV2", "commands/reports/switch_multilevel.go:NewSwitchMultilevelV1", "commands/reports/switch_multilevel.go:NewSwitchMultilevelV4"])
p("C16", "A sensor reading is the float64 nearest to the transmitted decimal value",
  "For size 1, 2 or 4 the reported value is the IEEE double nearest to v/10^p, where v is the big-endian two's complement integer in the next size bytes and p the top three bits of the header byte; trailing bytes do not matter.",
  "every payload with size 1, 2 or 4", "2^35 (value, precision) combinations",
  ["commands/reports/sensor_multi_level.go:NewSensorMultiLevel"])
p("C17", "A sensor report with an unsupported value size is rejected",
  "If the size field is not 1, 2 or 4, NewSensorMultiLevel returns an error instead of a fabricated reading.",
  "every payload", "the error branch is absent, so only a claim about all sizes exposes it",
  ["commands/reports/sensor_multi_level.go:NewSensorMultiLevel"])
p("C18", "Readings of different sensor types never overwrite each other in a node's state",
  "The state key under which a multilevel sensor reading is stored determines the sensor type: two reports with different type bytes are always stored under different keys, whatever their scales.",
  "every pair of sensor type bytes and scales", "all pairs of 256x4 header values, through string formatting and lower-casing",
  ["commands/reports/sensor_multi_level.go:NewSensorMultiLevel", "nodes/node.go:Node.ProcessEvent"])
p("C19", "Z-Wave durations convert to the documented time span",
  "Duration is 0 for 0x00, n seconds for n in 1..0x7F, n-0x7F minutes for n in 0x80..0xFD and an error for 0xFE and 0xFF; it is never negative and never above 126 minutes, and String() prints exactly that span in Go's duration syntax.",
  "every duration byte", "formatting of all values, both branches",
  ["commands/duration.go:Duration.Duration", "commands/duration.go:Duration.String"])
p("C20", "Manufacturer, type and product ids are rendered injectively as four lower-case hex digits",
  "For a 6-byte payload each of the three big-endian 16-bit ids is rendered as exactly four lower-case hex digits that determine it; any other length is an error.",
  "every payload", "2^48 payloads",
  ["commands/reports/manufacturer_specific.go:NewManufacturerSpecific"])
p("C21", "The endpoint report is decoded into the device's endpoint count and flags",
  "dynamic = bit 7 and identical = bit 6 of the first byte, endpoint count = the second byte; fewer than two bytes is an error; extra bytes are ignored.",
  "every payload", "all payloads of all lengths",
  ["commands/reports/multi_instance_endpoint.go:NewMultiChannelEndpoints"])
# ---------------------------------------------------------------- encoders
p("C22", "The dim level sent to a device is the requested level, clamped and truncated",
  "For every float64 level that is not NaN, SwitchMultilevel sends 0 if the level is below 1, 99 if above 99, and its integer part otherwise; the byte is never above 99. Node byte and framing bytes are fixed.",
  "every float64", "2^64 values; boundaries and infinities",
  ["commands/SwitchMultilevel.go:CmdSwitchMultilevel.SetValue", "commands/SwitchMultilevel.go:CmdSwitchMultilevel.Encode"])
p("C23", "Multi-channel encapsulation addresses the endpoint and preserves the inner command",
  "Encapsulating any command of at least 3 bytes (function, node, length, body) for endpoint e keeps function and node, adds 4 to the length, prefixes the body with 60 0D 01 e and leaves the body bytes unchanged; the inner command and the endpoint (mod 256) can be recovered from the result.",
  "every inner command and endpoint number", "unbounded commands",
  ["commands/MultiChannelEncap.go:MultiChannelEncap.Encode"])
p("C24", "The length byte of a raw command is the number of command bytes that follow",
  "commands.Raw.Encode sends a length byte equal to the number of bytes that follow it.",
  "every raw payload", "holds or fails uniformly over all payload lengths; a test on one payload cannot show it",
  ["commands/raw.go:Raw.Encode"])
p("C25", "On/Off/Level send the command the node supports, and nothing otherwise",
  "On a node that supports binary switching, On/Off send exactly one binary-switch set with 0xFF/0x00 to that node; otherwise, if it supports multilevel switching, one multilevel set with 99/0; otherwise nothing is sent. Level sends a multilevel set iff multilevel is supported. The bytes on the wire are a well-formed frame.",
  "every node id, every command class list, every level", "all class lists",
  ["nodes/commands.go:Node.On", "nodes/commands.go:Node.Off", "nodes/commands.go:Node.Level", "nodes/node.go:Node.HasCommand"])
p("C26", "Endpoint(k) addresses endpoint k of the device",
  "After endpoints were requested from a device reporting n endpoints, Node.Endpoint(k) for 1<=k<=n returns an endpoint whose commands are encapsulated for endpoint k; for other k it returns nil and never crashes.",
  "every endpoint count and every k", "all (n,k) pairs, including out of range ones",
  ["nodes/endpoints.go:Node.Endpoint", "nodes/request_endpoints.go:Node.RequestEndpoints", "nodes/endpoints.go:Endpoint.Write"])
# ---------------------------------------------------------------- request/response matching
p("C27", "Matching a received frame against a pending request never crashes",
  "For every pending request and every received frame the matching decision is made without a panic, and it is: same function (or data-to-report pairing), and, unless the request was for protocol info, the request's non-zero node, command class and expected report bytes equal bytes 5, 7 and 8.",
  "every request, every frame", "all frames of all lengths",
  ["connection.go:sendPackage.Match", "connection.go:MatchByteAt", "connection.go:newSendPackage"])
p("C28", "A protocol-info response is only delivered to the request for that node",
  "If two protocol-info requests for different nodes are pending, one response frame is delivered to at most one of them.",
  "every execution", "needs a schedule with two requests pending at once",
  ["connection.go:sendPackage.Match", "connection.go:Connection.Reader", "nodes/protocol_info.go:Node.RequestProtocolInfo"])
# ---------------------------------------------------------------- connection, all schedules
p("C29", "A request gets at most one response, is closed at most once, and gets nothing after closing",
  "For every request and every schedule, the reply channel receives at most one message, is closed at most once, and no message is sent after the close (so no send-on-closed or double-close panic can occur).",
  "every interleaving of callers, writers, reader, timers, resends and reconnects", "all schedules",
  ["connection.go:sendPackage.Close", "connection.go:Connection.Reader", "connection.go:Connection.timeoutWorker"])
p("C30", "A request with a timeout can never hang: it is answered, refused or timed out",
  "In every reachable state, every request with a non-zero timeout that has been taken by the writer and whose reply channel is still open is in the table of pending requests and has a running timer whose expiry closes the channel.",
  "every reachable state of every interleaving", "liveness over all schedules",
  ["connection.go:Connection.Writer", "connection.go:Connection.timeoutWorker", "connection.go:Connection.WriteWithTimeout"])
p("C31", "Commands are sent stop-and-wait: never two outstanding unacknowledged commands",
  "In every run, between two command writes there is an ACK/NAK/CAN result or a one-second send timeout for the first.",
  "every interleaving", "all schedules",
  ["connection.go:Connection.Writer"])
p("C32", "Commands reach the wire in the order they were issued, unmodified, exactly once per issue",
  "In every run, the sequence of command frames written to the port is a prefix of the sequence of issued sends (user sends and CAN-triggered resends in the order they were queued), and each written frame is the compiled frame of its command.",
  "every interleaving", "all schedules",
  ["connection.go:Connection.Write", "connection.go:Connection.Writer", "connection.go:newSendPackage"])
p("C33", "A cancelled command is the one that is re-sent",
  "When the stick answers CAN to the last command, that same command is queued again after the back-off.",
  "every state of the pending table and every map iteration order", "depends on Go's random map order and on loop-variable capture",
  ["connection.go:Connection.Reader"])
p("C34", "A NAK fails only the command it answers",
  "A NAK removes and closes exactly the last written command; every other pending request and reply channel is untouched. With no command awaiting a result a control byte changes nothing.",
  "every state, every iteration order", "all pending tables",
  ["connection.go:Connection.Reader"])
p("C35", "Waiting for a report never crashes the process",
  "WriteAndWaitForReport delivers the matching report or closes the channel; a matching frame whose payload this library cannot decode does not crash.",
  "every execution", "needs a matching but undecodable frame",
  ["connection.go:Connection.WriteAndWaitForReport", "connection.go:Connection.Reader", "nodes/request_states.go:Node.RequestStates"])
p("C36", "Fire-and-forget commands do not accumulate",
  "The table of pending requests is bounded by the number of commands that are still waiting for something.",
  "every execution", "growth over unbounded histories",
  ["connection.go:Connection.Write", "connection.go:Connection.Writer"])
p("C37", "Reconnecting does not create additional writers",
  "After any number of reconnects there is one goroutine that writes commands, so stop-and-wait still holds.",
  "every history of reconnects", "long histories",
  ["connection.go:Connection.Connect", "connection.go:Connection.Writer"])
p("C38", "Connected tells the truth",
  "Connection.Connected is true only while a port is open.",
  "every interleaving of open, read failure and the 200ms connect timer", "a race between a timer and a failure",
  ["connection.go:Connection.Connect"])
# ---------------------------------------------------------------- controller
p("C39", "Publishing an event never blocks; the queue keeps the oldest ten undelivered events in order",
  "For every history of publishes and reads, publishing always completes, the queue never holds more than ten events, events are read in publication order without duplication, and an event is dropped only when ten events are already waiting.",
  "every history of pushes and reads", "unbounded histories",
  ["controller.go:Controller.pushEvent", "controller.go:Controller.GetNextEvent"])
p("C40", "Every node loaded from the configuration is announced",
  "After loading a configuration with k nodes the event queue announces each of them.",
  "every saved configuration", "fails only beyond a size threshold",
  ["controller.go:Controller.LoadConfigurationFromFile", "controller.go:Controller.pushEvent"])
p("C41", "Node updates are saved once things are quiet, never without a change",
  "In every run, each save is preceded by an update that came after the previous save; the number of saves never exceeds the number of updates; and every update that is followed by ten quiet seconds is covered by a save.",
  "every timed history of updates", "unbounded timed histories",
  ["controller.go:Controller.saveDebouncer"])
p("C42", "Discovery creates exactly the active nodes, once each",
  "For every bitmap, after discovery the node list contains the nodes it contained before plus exactly the active node ids 2..232; existing nodes are kept unchanged; a discovery event is published for exactly the new ones, and identification is started for exactly the active ones.",
  "every bitmap and every prior node list", "2^232 bitmaps times all lists",
  ["controller.go:Controller.getNodes", "controller.go:Controller.initNode"])
p("C43", "Saving and loading a configuration preserves the persistent part of every node",
  "Loading what was saved gives, for every node, the same id, wake state, ids, names, command classes, endpoints and state values; endpoints point back to their node; volatile fields are reset.",
  "every controller state", "all node lists",
  ["controller.go:Controller.SaveConfigurationToFile", "controller.go:Controller.LoadConfigurationFromFile", "nodes/list.go:List.MarshalJSON", "nodes/list.go:List.UnmarshalJSON", "nodes/list.go:List.Add"])
p("C44", "A crash during a save leaves a loadable configuration (old or new)",
  "If the process dies at any point of SaveConfigurationToFile, the file on disk is either the previous configuration or the complete new one.",
  "every crash point, every old and new content", "crash points cannot be hit by unit tests",
  ["controller.go:Controller.SaveConfigurationToFile"])
p("C45", "Loading any syntactically valid configuration never crashes",
  "LoadConfigurationFromFile returns an error or loads the nodes for every JSON document.",
  "every JSON document", "needs specific documents (missing Nodes, null node)",
  ["controller.go:Controller.LoadConfigurationFromFile", "nodes/list.go:List.UnmarshalJSON", "nodes/list.go:List.All"])
# ---------------------------------------------------------------- node
p("C46", "A report changes exactly the state it describes",
  "Processing a switch, level or sensor report sets exactly the documented state entries to the reported value, leaves all other entries unchanged, and publishes exactly one update event with the node's id; other report kinds change nothing.",
  "every node state and report", "all states",
  ["nodes/node.go:Node.ProcessEvent"])
p("C47", "The alarm flag is a pulse that always ends",
  "In every interleaving of reports, the alarm flag is true only while an alarm report's one-second window is open; once all windows are closed it is false and the alarm value is zero; the last non-zero alarm type is remembered. A raised alarm stays raised for its whole window.",
  "every interleaving of reports and window ends", "overlapping windows",
  ["nodes/node.go:Node.ProcessEvent"])
p("C48", "A wake-up report releases everyone waiting for the node, and nobody else",
  "A goroutine waiting for a node to be awake is released by the next wake-up report (or at once if the node is listening); a wake-up that happens while nobody waits is not remembered.",
  "every history of waits and reports", "all interleavings",
  ["nodes/node.go:Node.isAwake", "nodes/node.go:Node.ProcessEvent"])
p("C49", "A node is only reported identified when everything is known",
  "In every run of identification, when it finishes the node has protocol info, manufacturer information, endpoints and requested states; each request was sent in that order and every published event carries the node's id.",
  "every sequence of responses, failures, wake-ups", "unbounded retry histories",
  ["nodes/node.go:Node.Identify"])
p("C50", "An identified node keeps the command classes the device database lists for it",
  "When identification finishes on a device found in the database, the node's command classes include the database's classes for it.",
  "every run of identification", "the loss happens on the second loop pass only",
  ["nodes/node.go:Node.Identify"])
p("C51", "Identification completes once the device answers",
  "From every state identification can reach, a bounded number of successful answers and wake-ups leads to completion; failures only delay it.",
  "every reachable state", "all failure histories",
  ["nodes/node.go:Node.Identify", "nodes/request_endpoints.go:Node.RequestEndpoints", "nodes/request_states.go:Node.RequestStates"])
p("C52", "A sleeping node is only contacted after it woke up",
  "In every run of identification, each radio request to a non-listening node is preceded by a wake-up report that came after the previous stage's request.",
  "every run", "all schedules of wake-ups and answers",
  ["nodes/node.go:Node.Identify", "nodes/node.go:Node.isAwake"])
p("C53", "The node list is a map from id to the last added node",
  "After any sequence of Add, Get(id) returns the last node added with that id and nil if there was none; All lists each id once.",
  "every sequence of operations", "unbounded histories",
  ["nodes/list.go:List.Add", "nodes/list.go:List.Get", "nodes/list.go:List.All"])
p("C54", "Reading the node list always returns",
  "List.Get and List.All return in every interleaving with Add.",
  "every interleaving", "needs the reader to copy the lock at one particular moment",
  ["nodes/list.go:List.Get", "nodes/list.go:List.All", "nodes/list.go:List.Add"])
# ---------------------------------------------------------------- database
p("C55", "A device lookup returns the device with exactly those ids, or nothing",
  "For all 16-bit manufacturer, type and product ids, the database lookup by their rendered ids returns a device carrying those same ids, or nil; every one of the devices is reachable by exactly one id triple.",
  "all 2^48 id triples", "cannot enumerate the triples",
  ["database/devices.go:New", "commands/reports/manufacturer_specific.go:NewManufacturerSpecific"])
p("C56", "The mandatory class lookup is a function of (generic, specific)",
  "For every pair of bytes GetMandatoryCommandClasses returns the unique table entry for the pair, whatever the map iteration order, and nil if there is none.",
  "all 65536 pairs and all iteration orders", "iteration order is random",
  ["database/commandclasses.go:GetMandatoryCommandClasses", "database/mandatory.go:definitions"])
p("C57", "The generated mandatory table is what the generator produces from the specification text",
  "Running the generator on mandatory.txt yields exactly the table in mandatory.go.",
  "the whole committed table", "regeneration is not part of the tests",
  ["generators/commandclasses/commandclasses.go:main", "database/mandatory.txt", "database/mandatory.go"])
# ---------------------------------------------------------------- recorder tools
p("C58", "The recording converter outputs every recorded byte, in order, per direction",
  "For every recording, the concatenation of the converter's rows of one direction is the concatenation of the recorded data of that direction.",
  "every recording", "unbounded recordings; the loss is at the end",
  ["cmd/serialrecordingtohex/serialrecordingtohex.go:logRowCombiner.combine", "cmd/serialrecordingtohex/serialrecordingtohex.go:main"])
p("C59", "The serial recorder logs every read and write exactly once",
  "In every schedule the log is a sub-multiset of the operations performed, and once all logging goroutines have run it is a permutation of them. The log is in operation order.",
  "every schedule of the logging goroutines", "all schedules",
  ["serialrecorder/serialrecorder.go:serialRecorder.Read", "serialrecorder/serialrecorder.go:serialRecorder.Write", "serialrecorder/serialrecorder.go:serialRecorder.logWriter"])
p("C60", "Each command class name in the specification text maps to its own class",
  "The generator maps 'Multichannel Association ...' to the multi-channel association class, not to plain association; every recognised text maps to the class it names.",
  "every text line", "all strings",
  ["generators/commandclasses/commandclasses.go:StringToByte"])
p("C61", "Names printed for functions and command classes identify them",
  "ZWaveFunction.String and ZWaveCommand.String never give two different codes the same non-empty name, and every exported constant prints its own name.",
  "all byte codes", "all pairs",
  ["serialapi/types.go:ZWaveFunction.String", "commands/constants.go:ZWaveCommand.String"])
exec(open(os.path.join(os.path.dirname(__file__), "more_properties.py")).read()) if os.path.exists(os.path.join(os.path.dirname(__file__), "more_properties.py")) else None
with open("/verif/properties.jsonl", "w") as f:
    for x in P: f.write(json.dumps(x) + "\n")
print(len(P))
