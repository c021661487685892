# ---------------------------------------------------------------- added while modelling
p("C62", "Alarm reports expose their fields, and short ones are zero-filled, never misread",
  "An alarm payload of 6 or more bytes gives type, level, sensor source, status, sensor type and event from bytes 0..5 in that order; one of 2 to 5 bytes gives type and level and zero for everything else; fewer than 2 bytes is an error. The raw payload is kept verbatim.",
  "every payload", "all payload lengths and contents",
  ["commands/reports/alarm.go:NewAlarm"])

p("C63", "Whether a frame answers a request depends only on that frame",
  "For every pending request and every received frame, the decision whether the frame answers the request is the same whatever bytes follow the frame in the receive buffer.",
  "every request, every frame, every following bytes", "pairs of frames and buffer contents",
  ["connection.go:Match", "connection.go:Reader"])
p("C64", "The issuer of a request always obtains the reply channel of its request",
  "In every run, the call that sends a command and waits returns the channel on which the answer (or the close) will arrive; it never returns a nil channel, on which a receiver would block forever.",
  "every interleaving of caller, writer, reader and timers", "needs the answer to overtake the issuer",
  ["connection.go:WriteAndWait", "connection.go:WriteAndWaitForReport", "connection.go:Close"])
p("C65", "A control byte and the following frame may arrive in one read",
  "If a control byte (ACK, NAK, CAN) and bytes of the next frame are read together while a command awaits its result, the process does not crash.",
  "every read boundary", "tests deliver control bytes alone",
  ["connection.go:Reader", "serialapi/message.go:Decode", "serialapi/message.go:NewMessage"])
p("C66", "Reports handed to the application come from intact frames only",
  "In every run, each report callback belongs to a complete frame with a correct checksum that was received and that carries exactly this report and sender.",
  "every execution, every byte stream", "needs stray bytes behind a control byte in the same read",
  ["connection.go:Reader", "serialapi/message.go:Decode"])

p("C67", "A level report that says 'unknown' leaves the known level alone",
  "A multilevel report whose value is 0xFE (unknown) does not change the node's level or on state.",
  "every node state", "needs a device that reports 0xFE",
  ["commands/reports/switch_multilevel.go:NewSwitchMultilevelV1", "nodes/node.go:ProcessEvent"])
p("C68", "The node list is not read while it is being changed",
  "In every interleaving, no Get, All or MarshalJSON looks at the list's map while an Add is changing it, and two Adds never overlap.",
  "every interleaving", "a data race shows up only under load",
  ["nodes/list.go:Add", "nodes/list.go:Get", "nodes/list.go:All"])
p("C69", "Processing a report never crashes the process",
  "For every node, however it was created, and every history of reports and alarm windows, ProcessEvent returns.",
  "every node, every history", "needs a configuration file without state maps",
  ["nodes/node.go:ProcessEvent", "nodes/node.go:New"])

p("C70", "Blank lines after the specification text do not change the generated table",
  "Running the mandatory-class generator on a text gives the same table as running it on that text with a blank line appended.",
  "every text", "the committed text happens to end with a blank line",
  ["generators/commandclasses/commandclasses.go:main"])

p("C71", "Identification does not depend on a device supporting endpoints",
  "During identification only nodes that list the multi-channel command class are asked for their endpoints, so a node without it can be identified.",
  "every run of identification", "all device types; needs a device that ignores the endpoint request",
  ["nodes/node.go:Node.Identify", "nodes/request_endpoints.go:Node.RequestEndpoints"])
p("C72", "Nodes are discovered even if the first discovery request is not answered",
  "If the controller does not answer the request for the node list in time, or answers with something else, discovery is attempted again, at the latest after the next connection, so that active nodes appear eventually.",
  "every run", "needs a lost answer at one particular moment",
  ["controller.go:Controller.getNodes", "gozwave.go:ConnectWithCustomPortOpener"])
p("C73", "A report for a known node never crashes the process",
  "At every moment, also while discovery is running, a report delivered for any node in the list is processed without a crash.",
  "every interleaving of discovery and reports", "needs a report in the window between adding a node and setting it up",
  ["controller.go:Controller.initNode", "controller.go:Controller.DeliverReportToNode", "nodes/node.go:Node.pushEvent"])
p("C74", "A failed Connect leaves the port alone",
  "After ConnectWithCustomPortOpener returned an error the port is not opened again.",
  "every run", "needs a port that appears after the failure",
  ["gozwave.go:ConnectWithCustomPortOpener", "connection.go:Connect"])
p("C75", "Connect succeeds only with an open port",
  "When ConnectWithCustomPortOpener returns without error the port is open.",
  "every run", "needs the port to fail within 200 ms of being opened",
  ["gozwave.go:ConnectWithCustomPortOpener", "connection.go:Connect"])
p("C76", "A recording holds the bytes as they were transferred",
  "What the recorder logs for a read or write is what was transferred, whatever the caller does with its buffer afterwards.",
  "every schedule and every use of buffers", "a data race with the caller",
  ["serialrecorder/serialrecorder.go:serialRecorder.Read", "serialrecorder/serialrecorder.go:serialRecorder.writeToLog"])
p("C77", "A recording can be read back",
  "The converter decodes every recording, also one during which the port was opened again.",
  "every schedule", "needs a reconnection during the recording",
  ["serialrecorder/serialrecorder.go:serialRecorder.Open", "serialrecorder/serialrecorder.go:serialRecorder.logWriter", "cmd/serialrecordingtohex/serialrecordingtohex.go:main"])
p("C78", "Everything a node learns can be saved",
  "Whatever reports and answers arrive, in whatever order, a node created for a device or loaded from the configuration can be written to the configuration file: all numbers are finite, all texts valid. (A number that is not finite would leave an empty file.)",
  "every history of reports and identification steps", "depends on every value a sensor can send and every entry of the device table",
  ["controller.go:Controller.SaveConfigurationToFile", "nodes/node.go:Node.ProcessEvent", "nodes/node.go:Node.Identify", "commands/reports/sensor_multi_level.go:NewSensorMultiLevel"])
p("C79", "A save that did not store the configuration says so",
  "SaveConfigurationToFile returns an error if the file could not be created or written completely.",
  "every failure point", "needs a full disk or missing permissions",
  ["controller.go:Controller.SaveConfigurationToFile"])
p("C80", "A configuration that loads gives nodes that can be used",
  "After LoadConfigurationFromFile returned without error, HasCommand on every loaded node returns.",
  "every JSON document", "needs a null in a list of command classes",
  ["controller.go:Controller.LoadConfigurationFromFile", "nodes/node.go:Node.HasCommand"])
p("C81", "A decoded message says what the bytes of its frame say",
  "For every complete frame, whatever follows it in the buffer, Decode consumes exactly the frame and gives a message with start byte 1, length byte 1, type byte 2 and function byte 3 of the frame. For function 4 the sender is byte 5 and the payload is the report decoded from the class, command and data that byte 6 announces; for function 2 the node list so announced; for function 0x41 the protocol info after byte 3; any other function is reported as not implemented, with no message. A control byte (ACK, NAK, CAN) alone gives a message of just this byte.",
  "every frame, every following bytes, every control byte", "all frame contents and all combinations of function and payload length",
  ["serialapi/message.go:Decode", "serialapi/message.go:NewMessage", "serialapi/application_command_handler.go:NewApplicationCommandHandler"])
p("C82", "The pending requests are not iterated over while one is added or removed",
  "In every interleaving of commands being sent, timeouts and received bytes, no goroutine looks at the table of pending requests while another one changes it. (The Go runtime stops the process when it notices a concurrent map iteration and map write.)",
  "every number of writers and timers, every sequence of received control bytes and frames, every schedule", "the runtime notices the overlap only by chance",
  ["connection.go:Reader", "connection.go:Writer", "connection.go:timeoutWorker"])
p("C83", "Saving does not read a node's state while a report changes it",
  "In every interleaving of reports for a node and saves of the configuration, the maps with the node's state are not read while they are being changed, and two reports never change them at the same time.",
  "every number of reports and saves, every schedule", "the runtime notices the overlap only by chance",
  ["controller.go:Controller.SaveConfigurationToFile", "nodes/list.go:List.MarshalJSON", "nodes/node.go:Node.ProcessEvent"])
p("C84", "A port that is away does not crash the process",
  "Whatever the port does (reads fail, opening it again fails any number of times), sending a command does not crash the process.",
  "every sequence of port failures, commands and timers", "needs a command while the stick is unplugged",
  ["connection.go:Connect", "connection.go:Writer", "gozwave.go:ConnectWithCustomPortOpener"])
p("C85", "No command is silently lost",
  "Every command that a writer takes from the queue is written to the port.",
  "every sequence of port failures, commands and timers", "needs a command between a failed read and the next successful open",
  ["connection.go:Writer", "connection.go:Reader", "connection.go:Connect"])
p("C86", "Readings of one sensor type in different scales are not stored under one key",
  "If two sensor reports of the same type are stored under the same key, they use the same scale.",
  "every pair of payloads", "needs a device that reports a scale the code does not know",
  ["commands/reports/sensor_multi_level.go:NewSensorMultiLevel", "nodes/node.go:Node.ProcessEvent"])
p("C87", "The device table is what the database files say",
  "database.New returns for every triple of ids exactly what the first file in database/json that mentions this device says about it (brand, product, description, ids, command classes of its first endpoint), and nothing for a device that no file mentions.",
  "every triple of texts, every reference of every file", "the table has hundreds of entries and is generated by hand-started tool runs",
  ["database/devices.go:New", "generators/database/database.go:main"])
p("C88", "A text in the generated source denotes the original text",
  "For every label, name or description, the Go string literal that the generator writes denotes exactly this text.",
  "every text", "needs texts with unusual characters",
  ["generators/database/database.go:escaper", "generators/database/database.go:templ"])
p("C89", "The generated source compiles to a table of the files",
  "For all files with printable texts and alphanumeric ids the generated source compiles, and the resulting table holds each device as the first file that mentions it describes it, and nothing else.",
  "every list of files", "needs files whose references collide in a particular way",
  ["generators/database/database.go:main", "generators/database/database.go:templ"])
p("C90", "A device is described as the files that mention it do",
  "For every file in database/json and every reference in it, database.New returns a device with the name, description and classes of this file.",
  "every reference of every file", "only a few of the hundreds of entries are affected",
  ["generators/database/database.go:main", "database/devices.go:New"])
p("C91", "The classes of a device are those of all its endpoints",
  "For every file in database/json, the device that database.New returns lists every command class that the file lists at any endpoint.",
  "every class of every endpoint of every file", "only multi-endpoint devices are affected",
  ["generators/database/database.go:main", "database/devices.go:New"])

p("C92", "Every received report shows in the node's state",
  "After all reports received from a node have been processed, and if the application changed nothing about the node meanwhile, the node shows what the last received report of each kind said, nothing else about it changed, and the application was notified once per report.",
  "every execution, every node, every sequence of reports received from it",
  "each report is processed in its own goroutine, and the order in which they run is not controllable in a test",
  ["connection.go:Connection.Reader", "controller.go:Controller.DeliverReportToNode", "nodes/node.go:Node.ProcessEvent"])
p("C93", "Nodes appear only from the configuration or from a received node list",
  "At any moment of an execution in which every received frame contains all the data it announces, every node that Nodes returns was in the configuration file or is named, with an id of at least 2, by a node list received from the stick.",
  "every execution, every known node",
  "needs every interleaving of received frames, requests and discovery",
  ["controller.go:Controller.getNodes", "controller.go:Controller.initNode", "serialapi/discovery_nodes.go:NewDiscoverdNodes"])
p("C94", "Every listed node becomes known",
  "When discovery has ended, every node other than the controller that a received node list names is returned by Nodes and was interrogated.",
  "every execution, every received node list, every node in it",
  "depends on whether the list arrives before the deadline of the request",
  ["controller.go:Controller.getNodes", "connection.go:Connection.WriteWithTimeout", "connection.go:Connection.timeoutWorker"])
p("C95", "A received frame reaches every request it answers, and no other",
  "When a frame of at least ten bytes is received, the requests that were sent and not yet answered and that end because of it are exactly those it answers, by the rule for the request's function or by the report the request waits for. Each of them whose caller is waiting receives the message.",
  "every execution, every frame of at least ten bytes, every outstanding request",
  "several requests outstanding at the moment of one frame cannot be arranged reliably in a test",
  ["connection.go:Connection.Reader", "connection.go:sendPackage.Match"])

p("C96", "Every issued command is written once the port has been opened",
  "While a command is waiting and the port was opened at least once, some writing goroutine can go on, whatever arrives or fails to arrive; and the command at place k of the queue is handed to the port after at most 2n+3k+1 steps of the writing goroutines, n being the number of times the port was opened.",
  "every execution, every waiting command",
  "a test cannot show that no combination of lost acknowledgements, reconnects and timeouts stops the queue",
  ["connection.go:Connection.Writer", "connection.go:Connection.Write", "connection.go:Connection.Connect"])
p("C97", "An accepted frame was received",
  "The bytes of every frame that is accepted and acknowledged were received in one piece: next to each other, in this order, with no reconnect and no pause of more than 40 ms inside.",
  "every execution, every accepted frame",
  "the failing inputs are noise in front of a damaged frame with a particular relation to its bytes",
  ["connection.go:Connection.Reader", "serialapi/message.go:Decode"])
p("C98", "Events name nodes that exist",
  "Whenever the application receives an event, Nodes.Get with the address of the event returns a node, and the node has this id. So the loop of the example program, which uses the result without a check, does not crash on any event.",
  "every configuration file, every execution, every event",
  "needs every interleaving of discovery, reports and reading of events",
  ["controller.go:Controller.pushEvent", "controller.go:Controller.GetNextEvent", "controller.go:Controller.initNode", "zwave-example/example.go:main"])
p("C99", "The web server of the example does what it answers",
  "A request for /nodes/ID is answered with 200 if ID is a decimal number that names a known node, 404 if it names none and 500 if it is not a 64 bit decimal number. /nodes/ID/ACTION is answered likewise, with 404 for actions other than on and off; on and off send one switch command to this node, and nothing else is ever sent.",
  "every pair of path segments, every state of the controller",
  "every text must be considered as a number, and nodes with every combination of command classes",
  ["zwave-example/example.go:getNode", "zwave-example/example.go:control", "nodes/commands.go:Node.On", "nodes/commands.go:Node.Off"])
p("C100", "What a node is shown to be is what it said",
  "At any moment, the product ids of a node are those of the configuration file or those of a manufacturer report received from this very node after it was asked for it; brand, product and description are then those the device database has for these ids. A node whose product is not known has the names of the file, or none.",
  "every execution in which every received frame contains all the data it announces, every node",
  "needs every interleaving of several identifications, reports of other nodes, lost frames and timeouts",
  ["nodes/node.go:Node.Identify", "nodes/manufacurer_specific.go:Node.RequestManufacturerSpecific", "connection.go:Connection.WriteAndWaitForReport", "connection.go:Connection.Reader"])
p("C101", "The type of a device is used for the node that was asked",
  "An answer that says the type of a device is used for one node, the one it was asked for.",
  "every execution in which every received frame contains all the data it announces, every node",
  "needs two nodes asked at the same time",
  ["nodes/protocol_info.go:Node.RequestProtocolInfo", "connection.go:sendPackage.Match", "controller.go:Controller.getNodes"])
p("C102", "An identified node has told everything about itself",
  "A node that is shown as identified and was not in the configuration file has been asked for its type, its product and its endpoints, and each of the three was in a frame received after the question; its endpoints are those of the last kind of frame, or none if its type has no command classes.",
  "every execution in which every received frame contains all the data it announces, every node",
  "needs every interleaving of several identifications, reports of other nodes, lost frames and timeouts",
  ["nodes/node.go:Node.Identify", "nodes/request_endpoints.go:Node.RequestEndpoints", "nodes/request_states.go:Node.RequestStates", "connection.go:Connection.Reader"])
p("C103", "No question of an identification waits for ever",
  "Whenever the identification of a node waits for an answer, the answer or the timeout of the request lets it go on.",
  "every execution, every node that is being identified",
  "the wait never ends only if the answer overtakes the caller between two statements",
  ["connection.go:Connection.WriteWithTimeout", "connection.go:Connection.WriteAndWaitForReport", "connection.go:Connection.timeoutWorker", "nodes/node.go:Node.Identify"])
p("C104", "The configuration file does not bring the program down",
  "Whatever the configuration file holds, and whoever wrote it, a running program that saves to it goes on.",
  "every execution with starts, kills, saves and edits of the file by others; every content of the file",
  "the contents that do harm are unusual documents that appear while the program runs, between two saves",
  ["controller.go:Controller.SaveConfigurationToFile", "controller.go:Controller.loadConfigurationFromFile", "controller.go:Controller.LoadConfigurationFromFile", "nodes/list.go:List.UnmarshalJSON"])
p("C105", "Everything the program saves can be loaded",
  "Whenever the program saves, with whatever nodes it knows at that moment, the text can be produced, the program can be started with it, and every start with it knows the same nodes with the same ids, names, products, classes, endpoints and states, marked as not yet identified.",
  "every execution with starts, kills, saves and edits of the file by others, every save in it",
  "the states of nodes come from any bytes a device may send and from any file loaded before",
  ["controller.go:Controller.SaveConfigurationToFile", "controller.go:Controller.LoadConfigurationFromFile", "nodes/node.go:Node.ProcessEvent", "gozwave.go:ConnectWithCustomPortOpener"])
p("C106", "Saved nodes survive",
  "Once a save has returned without an error, and if nobody else writes the file, a program started later knows the nodes of that save or of a later one.",
  "every execution with starts, kills and saves",
  "the kill must fall between the creation of the file and the end of writing",
  ["controller.go:Controller.SaveConfigurationToFile", "controller.go:Controller.saveDebouncer", "gozwave.go:ConnectWithCustomPortOpener"])
p("C107", "A start knows one saved state as a whole, or nothing",
  "If nobody else writes the file, the nodes known after a start are none, or those of one save as a whole, or, if the file was never created anew, those of the file at first. They are never part of a save or mixed from two.",
  "every execution with starts, kills and saves, every start in it",
  "a kill may cut the file after any byte",
  ["controller.go:Controller.SaveConfigurationToFile", "controller.go:Controller.LoadConfigurationFromFile", "gozwave.go:ConnectWithCustomPortOpener"])
p("C108", "An answer is used",
  "Whenever the identification of a node waits for its type, its product or its endpoints, and a frame with such an answer (for product and endpoints: from this node) is received, the identification goes on and the node then has the type, the product or the endpoints that are in the frame.",
  "every execution, every node, every frame that contains all the data it announces; everybody who was given a channel receives from it within a second",
  "needs every state of the connection and of the other identifications at the moment the answer arrives",
  ["nodes/node.go:Node.Identify", "nodes/protocol_info.go:Node.RequestProtocolInfo", "nodes/manufacurer_specific.go:Node.RequestManufacturerSpecific", "nodes/request_endpoints.go:Node.RequestEndpoints", "connection.go:Connection.WriteAndWaitForReport", "connection.go:Connection.Reader", "connection.go:sendPackage.Match"])
p("C109", "Printed alarms, products and endpoints name their values",
  "The text of an alarm report, of a product report and of an endpoint report contains a field with the value of every part of the payload the report has, in hexadecimal, as true or false, or in decimal, and an alarm without the long part shows no fields for it.",
  "every accepted payload",
  "the tests print one short and one long alarm",
  ["commands/reports/alarm.go:Alarm.String", "commands/reports/manufacturer_specific.go:ManufacturerSpecific.String", "commands/reports/multi_instance_endpoint.go:MultiChannelEndpoints.String"])
p("C110", "Printed switch reports show state, target and duration",
  "The text of a switch report shows the state that was reported: on or off, or the level in percent; it shows unknown if the report says that the state is unknown. If the report has a target and a duration, it shows these too.",
  "every accepted payload",
  "the unknown state of the on/off report is one value of 256 and is not among the tested ones",
  ["commands/reports/switch_binary.go:SwitchBinaryV1.String", "commands/reports/switch_binary.go:SwitchBinaryV2.String", "commands/reports/switch_multilevel.go:SwitchMultilevelV1.String", "commands/reports/switch_multilevel.go:SwitchMultilevelV4.String", "commands/duration.go:Duration.String"])
p("C111", "Printed sensor readings are right to half a millionth",
  "The number in the text of a sensor report differs from the transmitted reading by at most half a millionth, and not at all if the reading has at most six decimals. Texts of readings of different types or in different units differ.",
  "every payload with a value of 1, 2 or 4 bytes, every number of decimals, every type and scale",
  "2^32 values times eight precisions; the reading passes through a division of doubles and a rounding to decimals",
  ["commands/reports/sensor_multi_level.go:SensorMultiLevel.String", "commands/reports/sensor_multi_level.go:NewSensorMultiLevel"])
p("C112", "A node that answers is identified",
  "If the identification of a node waits for its type, then answers with its type, its product and its endpoints (and, if it does not listen all the time, its wake-up) are enough: the program can go on, receiving nothing else and without a step of any other identification, until this one returns; the node is then identified and has the type that was answered, the product and the endpoints it had before or those that were answered.",
  "every reachable state of the program, whatever the other identifications and commands are doing, every node, every such answer",
  "the tests identify no node through a connection; this needs the whole program and every state it can be in when the answers come",
  ["nodes/node.go:Node.Identify", "nodes/node.go:Node.isAwake", "nodes/protocol_info.go:Node.RequestProtocolInfo", "nodes/manufacurer_specific.go:Node.RequestManufacturerSpecific", "nodes/request_endpoints.go:Node.RequestEndpoints", "connection.go:Connection.Writer", "connection.go:Connection.Reader", "controller.go:Controller.DeliverReportToNode"])
p("C113", "An identification can always come to its end",
  "As long as the program runs and the identification of a node has not returned, there is a way to go on, in which only answers and a wake-up of this node are received and no other identification makes a step, that ends with the node identified and keeps what was known about it.",
  "every reachable state of the program, every node, every content of the answers",
  "whether a wait can still be ended depends on the order in which the connection and the identification ran before",
  ["nodes/node.go:Node.Identify", "nodes/node.go:Node.isAwake", "nodes/node.go:Node.ProcessEvent", "connection.go:Connection.WriteAndWaitForReport", "connection.go:Connection.Writer", "connection.go:Connection.Reader"])
p("C114", "Parameters of a device are those of its file",
  "A device found in the database has the configuration parameters of the first file that mentions it: the same parameters in the same order, each with its name, its size, its number, and the named values of the file, or its range if the file names no values. The same holds of the table generated from any files whose numbers fit into 64 bits and whose texts can stand in a source file.",
  "every lookup in the committed table, every committed file; every set of files the generator accepts",
  "5084 parameters in 706 generated functions; no test looks at them",
  ["generators/database/database.go:main", "generators/database/database.go:templ", "generators/database/database.go:parameter", "database/devices.go:New"])
p("C115", "The table allows the values of a parameter that its file allows",
  "A value that a file allows for a parameter, because it lies in its range or is one of the named values, is among the values the table gives for this parameter; in particular the default value is.",
  "every device of the committed files, every parameter, every value",
  "quantifies over all values of all parameters of all devices",
  ["generators/database/database.go:templ", "generators/database/database.go:parameter", "database/devices.go:New"])
p("C116", "All nodes of a network can be identified",
  "If identifications of any number of nodes have been started and none has done anything yet, and each of these nodes answers the questions for its type, its product and its endpoints (and, if it does not listen all the time, tells that it wakes up), then the program can go on, receiving nothing but these answers, until all of them have returned; each node is then identified, keeps what was known about it, and for the rest has what its own answers told, although an answer with a type does not name the node.",
  "every reachable state of the program that has not crashed and reads, every set of nodes, every set of answers",
  "identifications share one connection, and an answer with a type is taken by every identification that waits for one; the claim is about every number of nodes and every state before",
  ["nodes/node.go:Node.Identify", "controller.go:Controller.getNodes", "nodes/protocol_info.go:Node.RequestProtocolInfo", "nodes/manufacurer_specific.go:Node.RequestManufacturerSpecific", "nodes/request_endpoints.go:Node.RequestEndpoints", "connection.go:Connection.Writer", "connection.go:Connection.Reader"])
p("C117", "From the start of the program to an identified network",
  "If the controller acknowledges the question for the nodes and answers it with a list, and every listed node (other than node 1) answers as in C116, then the program, started with any configuration, can run until all of them are identified, receiving nothing but the acknowledgement, the list and the answers; the nodes then have what the configuration said and for the rest what they answered, and the program has not crashed.",
  "every configuration, every node list, every set of listed nodes, every set of answers",
  "needs connection, discovery and all identifications together, for every number of nodes",
  ["gozwave.go:ConnectWithCustomPortOpener", "controller.go:Controller.getNodes", "nodes/node.go:Node.Identify", "connection.go:Connection.Connect", "connection.go:Connection.Writer", "connection.go:Connection.Reader", "serialapi/message.go:Decode", "serialapi/discovery_nodes.go:NewDiscoverdNodes"])
p("C118", "What is known about a node stays known",
  "Whatever happens after a moment, a node known at that moment is still known later, under the same id, and nothing of the following is forgotten or changed once it is known: its type and with it whether it listens, its product and with it brand, product name and description, its endpoints; that its states were asked for and that it is identified are not taken back. Entries of its state may change their value but never disappear. (The command classes are not among this: C50.)",
  "every two moments of every execution of the program, every node",
  "answers that come late, twice or for several nodes at once, reports and alarms may all write to the same node; the claim is about every order of them",
  ["nodes/node.go:Node.Identify", "nodes/node.go:Node.ProcessEvent", "nodes/request_endpoints.go:Node.RequestEndpoints", "nodes/request_states.go:Node.RequestStates", "controller.go:Controller.getNodes", "controller.go:Controller.DeliverReportToNode", "nodes/list.go:List.Add"])
p("C119", "What is known is not asked for again",
  "Every command that the identification of a node sends is a question to this node, for its type, its product, its endpoints or its states, and what is asked for was not known at any earlier moment; in particular a node is not asked for what the configuration file told about it, and for nothing at all once its identification is through.",
  "every two moments of every execution of the program, every node",
  "a negative statement about everything that is sent in all executions",
  ["nodes/node.go:Node.Identify", "nodes/protocol_info.go:Node.RequestProtocolInfo", "nodes/manufacurer_specific.go:Node.RequestManufacturerSpecific", "nodes/request_endpoints.go:Node.RequestEndpoints", "nodes/request_states.go:Node.RequestStates", "controller.go:Controller.LoadConfigurationFromFile"])
p("C120", "Whoever follows the events is up to date",
  "An application that looks at a node, and later has received no update event about this node and has none waiting, would see the node as it was: same id, same type and product, same names, endpoints, states and command classes.",
  "every two moments of every execution of the program, every node",
  "every change in reports, alarms and identification must publish an event, and the events of all nodes share one bounded queue",
  ["nodes/node.go:Node.ProcessEvent", "nodes/node.go:Node.Identify", "nodes/request_endpoints.go:Node.RequestEndpoints", "controller.go:Controller.pushEvent", "controller.go:Controller.getNodes", "controller.go:Controller.GetNextEvent"])
p("C121", "When no save is due, the configuration file is current",
  "If a configuration file is used, and no save is running, scheduled or asked for, then all known nodes are in the file, as they are; \"in the file\" means in the list that was last handed to the save or, if there was no save yet, in the file that was loaded.",
  "every execution of the program, every moment, every node",
  "relates every change to the state of the goroutine that delays saves, in all interleavings",
  ["nodes/node.go:Node.ProcessEvent", "nodes/node.go:Node.Identify", "controller.go:Controller.pushEvent", "controller.go:Controller.saveDebouncer", "controller.go:Controller.getNodes", "controller.go:Controller.SaveConfigurationToFile", "controller.go:Controller.LoadConfigurationFromFile"])
p("C122", "A node is announced once, before anything else is told about it",
  "Each node in the list was in the configuration file, or a \"node discovered\" event has been published for it exactly once, or this is the next thing discovery does. No \"node updated\" event is published about a node that is not in the file before its \"node discovered\" event. Nodes of the file are not announced again by discovery.",
  "every configuration file, every execution up to a crash, every node, every event",
  "reports and discovery run concurrently; a report may arrive between adding and announcing a node",
  ["controller.go:Controller.getNodes", "controller.go:Controller.initNode", "controller.go:Controller.pushEvent", "controller.go:Controller.DeliverReportToNode", "nodes/node.go:Node.ProcessEvent"])
