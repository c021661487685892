STATUS = {
'C01': ('proved', 'Frame grammar in SpecFrame.v; also proves that payloads over 253 bytes never give a frame.'),
'C02': ('proved', 'Grammar shape_of is proved total and functional; Decode agrees with it on every slice on which it returns (C04 says when it does not return).'),
'C03': ('proved', 'Whatever follows the frame and whatever the spare capacity.'),
'C04': ('partial', 'REFUTED as stated: Decode panics on 06 01 (ACK followed by the next start byte in one read) and on an intact frame announcing 249 payload bytes (byte arithmetic 7+data[6] wraps). Proved: the exact iff condition for a panic, and safety for self-contained frames.'),
'C05': ('partial', 'REFUTED as stated: append(data[1:length+1], 0) overwrites the checksum byte of the caller buffer. Proved: that is the only possible change, and exactly when.'),
'C06': ('partial', 'REFUTED as stated: a frame whose announced payload exceeds it is completed from the following bytes. Proved for self-contained frames, for every tail and every spare capacity.'),
}
STATUS.update({
'C12': ('proved', 'Also proved: a bitmap of 30 bytes or more panics (index out of range), exactly then.'),
'C13': ('proved', ''),
'C14': ('proved', 'The sensor entry of the dispatch table also looks at the size field in the payload.'),
'C15': ('proved', ''),
'C16': ('proved', 'Correctly rounded (ties to even) and nearest among all doubles. Uses the axioms of the standard library reals.'),
'C17': ('partial', 'REFUTED: sizes 0, 3, 5, 6, 7 give a reading of 0 and no error, for every long enough payload. Proved: payloads shorter than announced are rejected.'),
'C19': ('proved', ''),
'C20': ('proved', ''),
'C21': ('proved', ''),
'C62': ('proved', ''),
})
STATUS.update({
'C18': ('proved', 'Also: different units of one type, and the keys on/level/alarm/alarmLastType, are kept apart.'),
'C22': ('proved', 'NaN is excluded (Go leaves byte(NaN) to the implementation).'),
'C23': ('proved', 'Length addition is modulo 256, as on the wire. Shorter inner commands panic (proved).'),
'C24': ('partial', 'REFUTED for every payload: the length byte is one too many (proved exactly).'),
'C25': ('proved', ''),
'C26': ('partial', 'REFUTED: Endpoint(k) addresses endpoint k+1, the last endpoint is unreachable and Endpoint(len) or a negative k panics. Proved: this exact behaviour for every k and that endpoint commands are the encapsulated node commands.'),
})
STATUS.update({
'C27': ('partial', 'REFUTED: a frame of fewer than nine bytes panics (index 5, 7 or 8 out of range), also as an execution from start-up. Proved: the decision is the documented one whenever it is made, and it is always made on nine bytes or more.'),
'C28': ('partial', 'REFUTED: one protocol-info response is delivered to both of two pending requests for different nodes. Proved: every delivery answers the request it is delivered to, and comes from a complete frame.'),
'C29': ('proved', 'For every interleaving, including reconnects; [Message] without a close only if the process crashed.'),
'C30': ('proved', ''),
'C31': ('partial', 'REFUTED once the connection was re-opened (two writers). Proved with at most one connect.'),
'C32': ('proved', 'Order of the send queue, and each written frame is the compiled one of a call; each call is queued exactly once.'),
'C33': ('partial', 'REFUTED: the goroutine captures the loop variable, so another pending command is re-sent. Proved for executions in which at most one pending command is looked at per control byte.'),
'C34': ('proved', 'For a NAK that arrives alone as a whole, and step by step for every interleaving.'),
'C35': ('partial', 'REFUTED: a matching frame that does not decode gives a nil message, which is dereferenced. Proved: no crash for frames of nine bytes or more that decode, or while nobody waits for a report.'),
'C36': ('partial', 'REFUTED for every n: n fire-and-forget commands leave n entries with no timer. Proved: entries with a timeout have a timer that removes them.'),
'C37': ('partial', 'REFUTED: two connects, two unanswered commands. Proved: never more unanswered commands than connects.'),
'C38': ('partial', 'REFUTED: the 200ms timer sets Connected after the port failed. Proved if no such timer fires late.'),
'C63': ('partial', 'REFUTED: a nine-byte frame is matched on the byte behind it. Proved for frames of ten bytes or more.'),
'C64': ('partial', 'REFUTED: a channel closed before the issuer looked is nil. Proved: that is the only way.'),
'C65': ('partial', 'REFUTED: ACK followed by a frame in one read dereferences a nil message. Proved for control bytes that arrive alone.'),
})
STATUS.update({
'C07': ('proved', 'For every interleaving with the other goroutines, and every chunking is shown to be executable. Frames are self-contained (C06).'),
'C08': ('partial', 'REFUTED: a single stray 01 before a frame destroys it (Decode overwrites a byte of the following frame). Proved for noise of bytes that start nothing and damaged frames of the announced length, for every interleaving.'),
'C09': ('proved', ''),
'C10': ('proved', ''),
'C11': ('partial', 'REFUTED: callbacks run in separate goroutines and can overtake each other. Proved up to order, if control bytes arrive alone.'),
'C66': ('partial', 'REFUTED: an ACK followed by stray bytes in one read invokes the callback without any checksum. Proved if control bytes arrive alone.'),
})
STATUS.update({
'C46': ('proved', 'For reports as the decoder produces them; the level is stored exactly.'),
'C47': ('partial', 'REFUTED (last sentence): with overlapping alarms the end of the first window clears the second alarm early. Proved: true only with an open window, false and zero when all have ended, last type remembered, and the exact value of the flag, for every interleaving.'),
'C48': ('partial', 'REFUTED: isAwake runs without the lock, and a wake-up processed inside it leaves the caller with a nil channel, forever. Proved: exactly who is released by each wake-up; undisturbed waits are released by the next one.'),
'C53': ('proved', ''),
'C54': ('partial', 'REFUTED: value receivers copy the lock; a copy made during Add is locked forever. Proved: exactly those calls never return, all others can.'),
'C67': ('partial', 'REFUTED: the validity flag is ignored and level 100 / on is stored. Proved: the decoder marks exactly these reports; each of them is taken for on, at level 100, and changes nothing else.'),
'C68': ('partial', 'REFUTED: readers lock a copy. Proved: Adds exclude each other, and only a call that was made before the Add began can look at the map during it.'),
'C69': ('partial', 'REFUTED: assignment to a nil state map (node loaded from a file without them). Proved for nodes with maps, as New makes them.'),
})
STATUS.update({
'C55': ('proved', 'For all texts as ids, not only rendered 16-bit numbers. Parameters of devices are not modelled.'),
'C56': ('proved', ''),
'C57': ('proved', 'By evaluation of the generator model on the committed text.'),
'C60': ('partial', 'REFUTED: the multi-channel association line is read as plain association. Proved for all other names, and that nothing is recognised that is not mentioned.'),
'C61': ('partial', 'REFUTED for command classes: Mark has the wrong code and seven others print nothing. Proved: names are unique, all function constants and 43 command class constants print their name.'),
'C70': ('partial', 'REFUTED: the last block is lost without a final blank line. Proved for texts that end with one.'),
})
STATUS.update({
'C49': ('proved', 'For nodes as created or loaded (nothing unsaved set), for every history of answers, failures, reports and alarm windows.'),
'C50': ('partial', 'REFUTED: the next pass overwrites the classes with the mandatory ones. Proved: an identified node lists exactly the mandatory classes of its type, and keeps the names of its database entry.'),
'C51': ('partial', 'REFUTED: a wake-up processed inside isAwake leaves identification waiting on a nil channel forever. Proved from every other reachable state: at most 424 cooperative steps, none of which gets stuck; and exactly which states are hopeless.'),
'C52': ('proved', 'If all protocol info answers say non-listening. State requests form one stage.'),
'C71': ('partial', 'REFUTED: every node of a known type is asked. Proved consequence: a node that never reports endpoints is never identified.'),
})
STATUS.update({
'C39': ('proved', 'For every run of the controller including loading; a goroutine waiting to request a save is left behind by each update, so publishing never waits for it.'),
'C40': ('partial', 'REFUTED for more than ten nodes: the queue is full before the application can read it. Proved for up to ten; all nodes are known in any case.'),
'C41': ('partial', 'REFUTED (first clause): an update that arrives just before a save also causes a second save. Proved: at most as many saves as updates, ten seconds apart, none without a file name, and every update followed by more than ten quiet seconds is saved (if time passes only while the debouncer has nothing to do).'),
'C42': ('proved', 'For every interleaving with reports, identification, saving and reading events.'),
'C72': ('partial', 'REFUTED: there is one attempt. Proved: after it no node is ever added.'),
'C73': ('partial', 'REFUTED: a node is visible before its callback is set. Proved: this and missing state maps are the only causes.'),
'C74': ('partial', 'REFUTED: the connection goroutine keeps trying. Proved: the call returns at most once, with an error only after a failed Open.'),
'C75': ('partial', 'REFUTED: the success notice comes 200 ms late. Proved: the port was opened before.'),
})
STATUS.update({
'C58': ('partial', 'REFUTED: the last burst of each direction is never printed. Proved: exactly that burst is missing, if the rows of each direction are in the order of their timestamps.'),
'C59': ('partial', 'REFUTED (order): rows are stamped and sent by unordered goroutines. Proved: each operation at most once, exactly once when logging has finished, and it can always finish; for callers that leave their buffers alone (see C76).'),
'C76': ('partial', 'REFUTED: the recorder keeps a reference to the buffer of the caller. Proved for callers that leave their buffers alone.'),
'C77': ('partial', 'REFUTED: every Open starts a new gob encoder on the same stream. Proved for one Open.'),
})
STATUS.update({
'C43': ('proved', 'For all nodes that can be stored (see C78), for every formatting of floats that reads back; such a formatting exists for all doubles. Maps are compared by their entries. Writing and reading JSON are modelled down to the bytes.'),
'C44': ('partial', 'REFUTED: the file is truncated before it is written. Proved: what can be found is the old file, the new file, or a cut version of the new one, which is rejected with an error.'),
'C45': ('partial', 'REFUTED: documents without nodes and documents with null crash. Proved: exactly which documents crash; none without null that has nodes, and no text that is not JSON.'),
'C78': ('proved', 'For every formatting of floats that reads back. Loaded nodes: see C43.'),
'C79': ('partial', 'REFUTED: nil is returned always. Proved: the file is complete if no file operation failed.'),
'C80': ('partial', 'REFUTED: a null command class is accepted and crashes HasCommand. Proved for documents without null.'),
})
STATUS.update({
'C81': ('proved', 'For frames that contain what they announce (others: C01, C03). What the payload decoders return is the subject of C14-C20 and C62; the checksum byte reads as zero.'),
})
STATUS.update({
'C82': ('partial', 'REFUTED: the loop for a control byte iterates without the lock. Proved: every overlap is one of this loop with a new command or a timeout; none if only frames arrive.'),
'C83': ('partial', 'REFUTED: encoding/json reads the maps without the lock of the node. Proved: reports exclude each other; every overlap involves a save.'),
'C84': ('partial', 'REFUTED: a failed Open leaves a nil port, which a writer uses. Proved if opening fails only before it first succeeds; then the theorems about the connection apply to runs with port failures.'),
'C85': ('partial', 'REFUTED: the error of Write is dropped. Proved for ports that do not fail.'),
})
STATUS.update({
'C86': ('partial', 'REFUTED: scales without a unit share a key. Proved for readings with a unit, except the four types that have one unit for every scale.'),
})
STATUS.update({
'C87': ('proved', 'For the committed table and the committed files. Parameters are left out.'),
'C88': ('partial', 'REFUTED: NUL and the byte order mark are not escaped. Proved: exactly the texts without these two survive.'),
'C89': ('partial', 'REFUTED: two references that differ only in case give the same case label twice. Proved if there are no such references; function names are distinct always. Parameters are left out.'),
'C90': ('partial', 'REFUTED: when two files mention one device the later one is dropped. Proved for devices mentioned once.'),
'C91': ('partial', 'REFUTED: only the first endpoint is used. Proved for files with one endpoint.'),
'C92': ('partial', 'REFUTED: reports are processed by independent goroutines, so an older one can win. Proved: between two moments without outstanding callbacks the node changes by exactly the reports received from it, each once, in some order, with one notification each; with one report the state is what it says.'),
'C93': ('proved', ''),
'C94': ('partial', 'REFUTED: a list that arrives after the request timed out is dropped. Proved when the request received a message: it is a received node list and every listed node but the controller is known and was interrogated.'),
'C95': ('proved', 'Shorter frames are matched against bytes that follow them (see C63).'),
})
STATUS.update({
'C96': ('proved', 'Steps of the writing goroutines are taking a command, giving up waiting for its acknowledgement (which the timer always allows) and becoming ready again. Writing to the port is taken not to block; that a failed write drops the command is C85.'),
'C97': ('partial', 'REFUTED: when a frame is rejected the place of its checksum has been set to zero; a later frame that contains this place can then be accepted although it never arrived. Proved: the frame arrived up to bytes set to zero; it arrived exactly if no byte 0x01 was dropped.'),
'C98': ('proved', ''),
'C99': ('partial', 'REFUTED: 200 is answered although nothing is sent when the node has neither switch class. Proved: the statuses, and the command sent for nodes with a switch class. Routing and the bodies of the answers are not modelled.'),
})
STATUS.update({
'C100': ('proved', ''),
'C101': ('partial', 'REFUTED: the answer does not name the node and is given to everybody who waits for a type. Proved: the type was in the file or in an answer received after this node was asked.'),
'C102': ('proved', 'The type may be that of another node (C101).'),
'C103': ('partial', 'REFUTED: if the answer is processed before the caller has read its channel, the channel it reads is nil and it waits for ever. Proved: once it has its channel, the timeout of the request lets it go on.'),
})
STATUS.update({
'C104': ('partial', 'REFUTED: SaveConfigurationToFile first loads the file that is there and panics if somebody has put a null node or a null endpoint into it. Proved: this is the only content at which a save panics; and if nobody else writes the file and the first start survives it, the file never does harm.'),
'C105': ('proved', 'For every formatter of floats that reads back as the same double. Starts with a file that holds a null command class, which the program never writes, are not followed.'),
'C106': ('partial', 'REFUTED: os.Create empties the file before the next save writes; a kill in between loses everything. Proved as long as no later save has begun.'),
'C107': ('proved', 'For every formatter of floats that reads back as the same double.'),
'C108': ('proved', ''),
})
STATUS.update({
'C109': ('proved', ''),
'C110': ('partial', 'REFUTED: the first version of the on/off report prints "current:false" for an unknown state. Proved for every other value of it, and without exception for the other three switch reports.'),
'C111': ('proved', ''),
})
STATUS.update({
'C112': ('proved', ''),
'C113': ('partial', 'REFUTED: an identification that reads its channel after the answer was processed, or that looks for the wake-up channel after the wake-up, waits for ever. Proved: these are exactly the cases; every other unfinished identification can be brought to its end.'),
})
STATUS.update({
'C114': ('proved', ''),
'C115': ('partial', 'REFUTED: if a file names some of the values of a parameter, its range is not written to the table, so that for 75 parameters of the committed files not even the default value is allowed (and the default itself is not written). Proved: the values allowed are exactly the range if no values are named, and exactly the named values otherwise.'),
})
STATUS.update({
'C116': ('proved', ''),
'C117': ('proved', ''),
'C118': ('proved', ''),
'C119': ('proved', ''),
'C120': ('partial', 'REFUTED: an event that does not fit the queue is dropped, and each round of Identify resets the command classes without an event. Proved: every other change is published, and if no event was dropped, the application is up to date in everything but the command classes.'),
'C121': ('partial', 'REFUTED: finding a node does not cause a save, so a node that never answers is not in the file. Proved: a save is about all nodes known at the time; the nodes of the last save, or of the loaded file as long as there was none, are as they were there, except for the command classes; of a node that is not there nothing but its id is known.'),
})
STATUS.update({
'C122': ('proved', 'About events as they are published: whether there is room for them in the queue is C39 and C40. A report that would be told about before the node is set up crashes the process instead (C73).'),
})
