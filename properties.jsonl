{"id": "C01", "title": "Pending requests never exceed the queue size", "statement": "Whatever sequence of send / failed send / response events a command executer goes through, the number of requests that are waiting for a response is at most max_queue_size. A send issued while the executer is full raises, transmits nothing to the device and leaves the set of waiting requests unchanged.", "quantifier": "every max_queue_size >= 1, every finite history of sends (successful or failing in the OS) and responses (with any packet id and any payload), every callback", "why_tests_cant": "The bound must hold after every interleaving of sends, OS errors and completions; a test fixes one interleaving.", "anchors": ["src/infi/asi/__init__.py:CommandExecuterBase.send", "src/infi/asi/__init__.py:CommandExecuterBase._next_packet_index", "src/infi/asi/__init__.py:CommandExecuterBase._process_pending_response"]}
{"id": "C02", "title": "In-order completion: each callback runs exactly once with its own response", "statement": "If the OS never rejects a send and the device completes requests in the order in which they were sent, then every callback passed to send() is invoked exactly once per completed request, with the data (or the exception) of the response to that very request, and in submission order; requests not completed yet are exactly those still waiting.", "quantifier": "every max_queue_size >= 1, every history of accepted sends interleaved with in-order completions, of any length (packet indices wrap around arbitrarily often)", "why_tests_cant": "The index counter wraps modulo max_queue_size, so correctness has to hold for unboundedly long histories and every interleaving.", "anchors": ["src/infi/asi/__init__.py:CommandExecuterBase.send", "src/infi/asi/__init__.py:CommandExecuterBase._next_packet_index", "src/infi/asi/__init__.py:CommandExecuterBase._process_pending_response"]}
{"id": "C03", "title": "Out-of-order completion: the exact limit of the routing guarantee", "statement": "The packet index is handed out round-robin without checking that it is free. Every history in which no request is still waiting when max_queue_size further sends have been accepted for transmission after it is routed correctly: each response reaches exactly the callback of its own request. Every other history can be continued so that a valid response is lost, and for every queue size of at least two there is a history of accepted sends and valid responses in which a callback receives the response of another request whose own callback is never called, although fewer than max_queue_size requests were ever waiting.", "quantifier": "every max_queue_size >= 1 (refutation: >= 2) and every history of sends, failed sends and completions in any order", "why_tests_cant": "Needs the worst completion order for every queue size; the shipped tests never complete out of order.", "anchors": ["src/infi/asi/__init__.py:CommandExecuterBase.send", "src/infi/asi/__init__.py:CommandExecuterBase._next_packet_index"]}
{"id": "C04", "title": "Single-slot executers always route correctly", "statement": "An executer created with max_queue_size=1 (the default for the Linux SG_IO, Solaris and AIX executers) delivers each response to the callback of the request that produced it, exactly once, for every history, including histories with sends rejected by the OS.", "quantifier": "every history of sends (accepted or rejected) and responses for max_queue_size = 1", "why_tests_cant": "Needs all interleavings of failures and completions.", "anchors": ["src/infi/asi/__init__.py:CommandExecuterBase.send", "src/infi/asi/solaris.py:SolarisCommandExecuter.__init__", "src/infi/asi/aix.py:AixCommandExecuter.__init__", "src/infi/asi/linux.py:LinuxIoctlCommandExecuter.__init__"]}
{"id": "C05", "title": "One-command-at-a-time use is safe for every queue size, even after failed sends", "statement": "When a program waits for each command before it sends the next one (what sync execution of CDBs does), every command receives its own response, whatever commands failed to be sent before and however often the packet index has wrapped.", "quantifier": "every max_queue_size >= 1 and every history in which a send is only issued when nothing is waiting", "why_tests_cant": "Unbounded histories; failed sends consume packet indices.", "anchors": ["src/infi/asi/__init__.py:CommandExecuterBase.call", "src/infi/asi/__init__.py:CommandExecuterBase.send"]}
{"id": "C06", "title": "A send rejected by the OS is rolled back", "statement": "If the OS raises while a command is being sent, send() raises that same exception, the command's callback is never invoked, and, provided the packet index was free, all other waiting requests are exactly as before. If the index was in use (possible after out-of-order completion) the roll back also discards the other request: its later response is reported as AsiInternalError.", "quantifier": "every executer state, command, callback and exception", "why_tests_cant": "Requires all states reachable by wrap-around.", "anchors": ["src/infi/asi/__init__.py:CommandExecuterBase.send"]}
{"id": "C07", "title": "A response nobody waits for raises AsiInternalError and disturbs nothing", "statement": "Processing a response whose packet id is not waiting raises AsiInternalError, invokes no callback and leaves the waiting requests unchanged.", "quantifier": "every executer state and every response whose id is not waiting", "why_tests_cant": "All states and ids.", "anchors": ["src/infi/asi/__init__.py:CommandExecuterBase._process_pending_response"]}
{"id": "C08", "title": "wait() returns only with an empty queue, after every callback ran exactly once", "statement": "If the device answers every waiting request exactly once, in whatever order, wait() terminates after exactly as many responses as there were waiting requests, the queue is then empty, and each callback was invoked exactly once with its own response. wait() on an empty queue returns at once without touching the OS.", "quantifier": "every set of waiting requests, every permutation in which the responses arrive, every payload", "why_tests_cant": "All permutations of an unbounded number of requests.", "anchors": ["src/infi/asi/__init__.py:CommandExecuterBase.wait", "src/infi/asi/__init__.py:CommandExecuterBase._process_pending_response"]}
{"id": "C09", "title": "call() returns the response of its own command", "statement": "call(command) on an executer with a free slot runs callbacks of other requests whose responses arrive first, and then returns the data of its own response, or raises the exception that its own response was translated to; it never returns another request's data.", "quantifier": "every executer state whose next index is free, every finite sequence of foreign responses preceding the own response", "why_tests_cant": "Unbounded number of foreign completions before the own one.", "anchors": ["src/infi/asi/__init__.py:CommandExecuterBase.call"]}
{"id": "C10", "title": "What a full queue raises", "statement": "Sending through an executer whose queue is full raises. The documented exception is AsiRequestQueueFullError, but the module that raises it does not import the name: the exception observed is NameError, for every full executer.", "quantifier": "every full executer state, command and callback", "why_tests_cant": "No test fills the queue; the statement is for every full state.", "anchors": ["src/infi/asi/__init__.py:CommandExecuterBase._next_packet_index", "src/infi/asi/errors.py:AsiRequestQueueFullError"]}
{"id": "C11", "title": "Requests sent without a callback", "statement": "send(command) without callback (the default) makes the completion of that request raise TypeError after the request has been removed from the waiting set; all other requests are unaffected and can still be completed.", "quantifier": "every executer state and response", "why_tests_cant": "All states.", "anchors": ["src/infi/asi/__init__.py:CommandExecuterBase.send", "src/infi/asi/__init__.py:CommandExecuterBase._process_pending_response"]}
{"id": "C12", "title": "sync_wait gives nested generators the meaning of nested calls", "statement": "For coroutines of any nesting depth, sync_wait(g) has the same result, exception and side effects as evaluating g recursively, where yielding a generator means calling it (the value of the yield expression is the last value the inner generator yielded, or the exception that escaped from it is raised at the yield) and yielding a plain value means receiving that value back.", "quantifier": "every coroutine (tree of generators of any depth and length, with shared mutable state) in which each called generator yields a value before finishing normally", "why_tests_cant": "Unbounded nesting and arbitrary generator behaviour.", "anchors": ["src/infi/asi/coroutines/sync_adapter.py:Coroutine._next_step", "src/infi/asi/coroutines/sync_adapter.py:Coroutine.loop", "src/infi/asi/coroutines/sync_adapter.py:sync_wait"]}
{"id": "C13", "title": "Exceptions surface at the right frame", "statement": "An exception raised at any depth is thrown into each enclosing generator from the inside out until one catches it and goes on; a generator that raises another exception instead passes that one outwards; if none catches it, sync_wait raises the exception that came out of the outermost one. No generator outside the handler sees the exception, provided the handler yields before it finishes.", "quantifier": "every stack of generators of any depth and every exception", "why_tests_cant": "Unbounded nesting depth.", "anchors": ["src/infi/asi/coroutines/sync_adapter.py:Coroutine._next_step", "src/infi/asi/coroutines/sync_adapter.py:sync_wait"]}
{"id": "C14", "title": "A handled exception resurfaces if the handler finishes without yielding", "statement": "If a called generator catches the exception thrown into it and then finishes without yielding again, the machine throws the same exception once more into its caller although it was handled; at the outermost generator the exception is dropped and a stale intermediate value is returned. So the guarantee of C13 needs its proviso.", "quantifier": "every exception and every caller (refutation of the unconditional guarantee, with the behaviour stated for all callers)", "why_tests_cant": "Needs reasoning about the driver's leftover state rather than one example.", "anchors": ["src/infi/asi/coroutines/sync_adapter.py:Coroutine._next_step"]}
{"id": "C15", "title": "Generators that yield nothing leak a generator object", "statement": "If the last thing a coroutine does is to call a generator that finishes without yielding, sync_wait returns that exhausted generator object instead of None; the caller itself receives None at its yield.", "quantifier": "every coroutine of this shape", "why_tests_cant": "Stated for all continuations.", "anchors": ["src/infi/asi/coroutines/sync_adapter.py:Coroutine._next_step", "src/infi/asi/coroutines/sync_adapter.py:Coroutine.loop"]}
{"id": "C16", "title": "Yielding an exception object raises it", "statement": "A generator that yields an exception instance as a plain value gets that instance raised at the yield instead of received as value.", "quantifier": "every generator and exception", "why_tests_cant": "All generators.", "anchors": ["src/infi/asi/coroutines/sync_adapter.py:Coroutine._next_step"]}
{"id": "C17", "title": "async_wait: results in command order, independent of completion order", "statement": "async_wait(c1..cn) on coroutines with separate state returns the list of the results that sync_wait would have returned for each ci, in argument order, for every order in which the OS reports the I/Os complete; every I/O result is delivered to the coroutine that issued it.", "quantifier": "every finite list of distinct commands, any number of I/Os in each, and every schedule chosen by the OS", "why_tests_cant": "All schedules of unboundedly many commands.", "anchors": ["src/infi/asi/win32.py:Win32AsyncReactor.wait_for", "src/infi/asi/win32.py:Win32AsyncReactor._wait_for_events", "src/infi/asi/coroutines/sync_adapter.py:AsyncCoroutine"]}
{"id": "C18", "title": "Executer adapter with sync_call", "statement": "An adapter built with sync_call behaves like the wrapped executer for call, send and wait (same results, exceptions and effects, each performed once); is_queue_full through the adapter always fails with AttributeError. sync_call calls the function it is given twice: what a function does that is not a generator function happens twice.", "quantifier": "every executer operation and state", "why_tests_cant": "All states; the wrapper calls the generator function twice, so effects could be doubled.", "anchors": ["src/infi/asi/__init__.py:CommandExecuterAdapter", "src/infi/asi/coroutines/sync_adapter.py:sync_call"]}
{"id": "C19", "title": "Linux sg: classification of responses is complete and exact", "statement": "For every response, the Linux executer reports check condition exactly if bit 1 of the SCSI status or bit 3 of the driver status is set; otherwise it reports success exactly if SCSI status, low nibble of driver status and host status are all zero, and an AsiException in all other cases. So no response with an error indication is reported as success, and no clean response as failure.", "quantifier": "every status byte, driver status, host status and request", "why_tests_cant": "2^40 status combinations.", "anchors": ["src/infi/asi/linux.py:LinuxCommandExecuter._handle_raw_response"]}
{"id": "C20", "title": "Linux sg: data is returned exactly for successful reads and is the whole buffer", "statement": "On success a read command with max_response_length > 0 yields exactly max_response_length bytes, namely the buffer the device wrote to (bytes the device did not write remain zero), and every other command yields None. The residual count is not consulted.", "quantifier": "every request, every device payload not longer than the buffer", "why_tests_cant": "All lengths and payloads.", "anchors": ["src/infi/asi/linux.py:LinuxCommandExecuter._handle_raw_response", "src/infi/asi/linux.py:SGIO.create"]}
{"id": "C21", "title": "Linux sg: reservation conflict and queue-full reporting", "statement": "AsiReservationConflictError is reported exactly for responses without check condition whose SCSI status is non-zero and whose host status is 0x18, AsiRequestQueueFullError exactly for those with host status 0x07. In particular a device that answers RESERVATION CONFLICT (SCSI status 0x18, host status 0) is reported as a plain AsiSCSIError.", "quantifier": "every status byte, driver status and host status", "why_tests_cant": "Exact characterisation over the whole status space.", "anchors": ["src/infi/asi/linux.py:LinuxCommandExecuter._handle_raw_response"]}
{"id": "C22", "title": "Linux sg: request blocks describe the command", "statement": "The request block given to the driver holds the CDB unchanged with its exact length, a 255 byte sense area, the packet id, the timeout, and: direction FROM_DEV with max_response_length bytes for reads with positive length, NONE for zero-length reads, TO_DEV with exactly the given data for writes.", "quantifier": "every packet id, CDB of at most 255 bytes, timeout and read or write command", "why_tests_cant": "All lengths.", "anchors": ["src/infi/asi/linux.py:SGIO.create"]}
{"id": "C23", "title": "Linux SG_IO ioctl executer discards the response header", "statement": "The linux_dm executer hands an immutable copy of the request block to ioctl and later parses its own, unmodified block: for every SCSI, driver and host status the device returns, the command is reported as successful.", "quantifier": "every request and every device response (refutation of: an error status is reported as an exception)", "why_tests_cant": "Needs the aliasing argument for every response.", "anchors": ["src/infi/asi/linux.py:LinuxIoctlCommandExecuter._os_send", "src/infi/asi/linux.py:LinuxIoctlCommandExecuter._os_receive"]}
{"id": "C24", "title": "Solaris: classification of responses", "statement": "A response is reported as check condition exactly if bit 1 of the low status byte is set, as success exactly if the low status byte and the request-sense status are zero, and as AsiSCSIError otherwise; the printed reason code is always zero.", "quantifier": "every 16-bit uscsi_status and every rqstatus byte", "why_tests_cant": "All status words.", "anchors": ["src/infi/asi/solaris.py:SolarisCommandExecuter._handle_raw_response"]}
{"id": "C25", "title": "Solaris and AIX executers answer packet 0 only", "statement": "Because both executers label every response with packet id 0, any number of commands run one after the other are each answered correctly with the default max_queue_size=1, while for every larger queue size the second command ever sent through call() is executed by the device but its caller gets an exception (AttributeError if the device reported success, AsiInternalError if it reported an error) and its request keeps waiting.", "quantifier": "every max_queue_size, every command and response", "why_tests_cant": "Needs all queue sizes.", "anchors": ["src/infi/asi/solaris.py:SolarisCommandExecuter._handle_raw_response", "src/infi/asi/aix.py:AixCommandExecuter._handle_raw_response"]}
{"id": "C26", "title": "AIX: classification of responses", "statement": "A response with status_validity 0 is success; validity SC_SCSI_ERROR is check condition exactly if bit 1 of the masked bus status is set, else AsiSCSIError; SC_ADAPTER_ERROR and every other validity value is AsiSCSIError. So a response carrying any validity flag is never reported as success.", "quantifier": "every status_validity, bus status and adapter status byte", "why_tests_cant": "All byte combinations.", "anchors": ["src/infi/asi/aix.py:AixCommandExecuter._handle_raw_response"]}
{"id": "C27", "title": "AIX: failing ioctl", "statement": "With the fcntl ioctl, a failing ioctl raises AsiOSError unless the driver left a valid status (and no invalid-argument code), in which case the status decides. With the ctypes ioctl a failing call is not noticed: if the driver left no valid status the command is reported as successful.", "quantifier": "every einval code, status validity and ioctl outcome", "why_tests_cant": "All combinations of driver outcomes.", "anchors": ["src/infi/asi/aix.py:AixCommandExecuter._os_send", "src/infi/asi/aix.py:get_ioctl_function"]}
{"id": "C28", "title": "Windows: classification of responses and data truncation", "statement": "A response is check condition exactly if ScsiStatus is 2, success exactly if it is 0, AsiSCSIError otherwise; a successful read yields exactly the first DataTransferLength bytes of the buffer.", "quantifier": "every status byte, transfer length and buffer", "why_tests_cant": "All statuses and lengths.", "anchors": ["src/infi/asi/win32.py:Win32CommandExecuter._os_receive"]}
{"id": "C29", "title": "Windows: CDB and direction in the request block", "statement": "CDBs of at most 16 bytes are copied unchanged and zero padded with their exact length; longer CDBs raise IndexError and nothing is sent. Direction is IN for reads with positive length, OUT for non-empty writes and UNSPECIFIED otherwise.", "quantifier": "every CDB and every command", "why_tests_cant": "All lengths.", "anchors": ["src/infi/asi/win32.py:SCSIPassThroughDirect.create"]}
{"id": "C30", "title": "Reading a unix device file: timeout discipline", "statement": "UnixFile.read reads the descriptor at most once and only right after a poll that found it readable; it returns what the OS gives at the first such poll, raises IOError at the first look at the clock that is beyond the timeout (never earlier, but without a last poll), passes on errors of select, and gives up after at most timeout/d + 1 polls if successive clock readings are at least d apart.", "quantifier": "every sequence of readiness answers and clock readings, every timeout", "why_tests_cant": "Unbounded polling loop under every clock and readiness behaviour.", "anchors": ["src/infi/asi/unix.py:UnixFile.read"]}
{"id": "C31", "title": "Device handles are closed exactly once", "statement": "The platform context managers give the body an executer (linux_dm the ioctl executer wherever it is used, the others that of the system, linux_sg with a timeout of 3000) and close the device handle exactly once after the body finished, whether it returned or raised, and re-raise the body's exception unchanged (unless close itself raises); if opening fails nothing is closed. The only case in which an opened handle is never closed is linux_sg on Windows, where the executer cannot be created.", "quantifier": "every body outcome, every outcome of open, executer creation and close", "why_tests_cant": "All combinations of failure points.", "anchors": ["src/infi/asi/executers.py:windows", "src/infi/asi/executers.py:linux_dm", "src/infi/asi/executers.py:linux_sg", "src/infi/asi/executers.py:solaris", "src/infi/asi/executers.py:aix"]}
{"id": "C32", "title": "READ(6/10/12/16): the device is asked for exactly the requested blocks", "statement": "Every READ command that can be constructed and packed is a CDB that a standard-conforming device decodes to a read of exactly the requested logical block address and number of blocks (READ(6) length 0 meaning 256), and the construction succeeds exactly for addresses and lengths that fit the CDB (2^21/2^8, 2^32/2^16, 2^32/2^32, 2^64/2^32).", "quantifier": "every logical block address and transfer length (all integers)", "why_tests_cant": "2^96 argument values; boundaries at powers of two.", "anchors": ["src/infi/asi/cdb/read.py:Read6Command", "src/infi/asi/cdb/read.py:Read10Command", "src/infi/asi/cdb/read.py:Read12Command", "src/infi/asi/cdb/read.py:Read16Command"]}
{"id": "C33", "title": "READ: the data-in buffer has the size of the requested blocks", "statement": "READ(10/12/16) ask the transport for exactly block_size * transfer_length bytes. READ(6) does so for transfer lengths 1..255; for transfer length 0 (256 blocks) it asks for 131072 bytes whatever the block size, which is 256 * block_size exactly if block_size is 512.", "quantifier": "every transfer length and every block size", "why_tests_cant": "All block sizes.", "anchors": ["src/infi/asi/cdb/read.py:Read6Command.execute", "src/infi/asi/cdb/read.py:Read10Command.execute", "src/infi/asi/cdb/read.py:Read16Command.execute"]}
{"id": "C34", "title": "WRITE(6/10/12/16): the device is told to write exactly the given buffer", "statement": "Every WRITE command that can be constructed and packed is decoded by a conforming device as a write of len(buffer)/block_size blocks at the given address, the data transferred is the buffer itself, and block count times block size equals the buffer length. Construction succeeds exactly for buffers that are a multiple of the block size and counts and addresses that fit (WRITE(6): 1..256 blocks; WRITE(12): at least one block).", "quantifier": "every address, buffer and block size >= 1", "why_tests_cant": "All lengths and addresses; boundary values.", "anchors": ["src/infi/asi/cdb/write.py:Write6Command", "src/infi/asi/cdb/write.py:Write10Command", "src/infi/asi/cdb/write.py:Write12Command", "src/infi/asi/cdb/write.py:Write16Command"]}
{"id": "C35", "title": "What is written is what is read", "statement": "On a conforming block device reached through the synchronous API, reading blocks right after writing them returns the written buffer, and reading blocks not overlapped by the write returns what was there before, for every combination of WRITE(6/10/12/16) and READ(6/10/12/16) whose CDB can express the address and count, with block size 512 (any block size for the 10/12/16 forms).", "quantifier": "every device content, address, buffer, and choice of command sizes", "why_tests_cant": "Whole-stack statement over all device contents and addresses.", "anchors": ["src/infi/asi/cdb/read.py", "src/infi/asi/cdb/write.py", "src/infi/asi/__init__.py:CommandExecuterBase.call", "src/infi/asi/coroutines/sync_adapter.py:sync_wait"]}
{"id": "C36", "title": "WRITE SAME(10/16)", "statement": "Every WRITE SAME command that can be constructed and packed is decoded by a conforming device as the given address and number_of_blocks with the given flags; the buffer sent is the one given and its length is a multiple of 512, whatever the block size argument is.", "quantifier": "every address, number of blocks, buffer, flags and block size", "why_tests_cant": "All argument values.", "anchors": ["src/infi/asi/cdb/write_same.py:WriteSame10Command", "src/infi/asi/cdb/write_same.py:WriteSame16Command"]}
{"id": "C37", "title": "COMPARE AND WRITE", "statement": "Every COMPARE AND WRITE command that executes is decoded by a conforming device as the given address and number of blocks. The buffer a conforming device expects is 2 * blocks * block_size bytes; the class accepts every multiple of the block size, so for every block count there are accepted buffers of the wrong size.", "quantifier": "every address, block count, buffer and block size >= 1", "why_tests_cant": "All argument values.", "anchors": ["src/infi/asi/cdb/compare_and_write.py:CompareAndWriteCommand"]}
{"id": "C38", "title": "UNMAP carries exactly the requested ranges", "statement": "For every list of (address, count) ranges that can be packed, the parameter list sent contains exactly these ranges in order, the block descriptor data length is 16 per range and the CDB's parameter list length is the length of the data sent. More than 4095 ranges, or a range out of bounds, raise instead of being truncated.", "quantifier": "every list of ranges, of any length", "why_tests_cant": "Unbounded lists; overflow boundary of 16-bit length fields.", "anchors": ["src/infi/asi/cdb/unmap.py:UnmapCommand", "src/infi/asi/cdb/unmap.py:UnmapParameterListHeader", "src/infi/asi/cdb/unmap.py:UnmapParameterListBlock"]}
{"id": "C39", "title": "UNMAP data length field is one too large", "statement": "SBC-3 defines UNMAP DATA LENGTH as the number of bytes that follow the field (parameter list length minus 2). For every list of ranges the value sent is one more than that.", "quantifier": "every list of ranges that can be packed", "why_tests_cant": "Every list.", "anchors": ["src/infi/asi/cdb/unmap.py:UnmapParameterListHeader"]}
{"id": "C40", "title": "READ CAPACITY(10/16)", "statement": "The CDBs are decoded by a conforming device as READ CAPACITY with the given address, PMI and (16) allocation length 32, and the result object holds exactly the last logical block address, block length, protection, provisioning and alignment fields of the response, for every response of sufficient length; shorter responses raise.", "quantifier": "every address and pmi, every response", "why_tests_cant": "All 2^256 responses.", "anchors": ["src/infi/asi/cdb/read_capacity.py:ReadCapacity10Command", "src/infi/asi/cdb/read_capacity.py:ReadCapacity16Command"]}
{"id": "C41", "title": "REPORT LUNS returns the device's LUN list or refuses", "statement": "For every response holding a list of 8-byte LUNs, the result is the list of the 16-bit first-level addresses in order if every entry uses simple single-level addressing, so each returned LUN is below 16384 and determines its entry; otherwise an UnsupportedReportLuns exception is raised, unless explicitly allowed. hex_lun_list is the list of raw entries.", "quantifier": "every list of LUN entries of any length", "why_tests_cant": "Unbounded lists of 64-bit values.", "anchors": ["src/infi/asi/cdb/report_luns.py:ReportLunsCommand.execute", "src/infi/asi/cdb/report_luns.py:ReportLunsData"]}
{"id": "C42", "title": "CDB length always matches the opcode's group code", "statement": "Every CDB produced by any command class has the length that SPC prescribes for the group code of its operation code (6, 10, 16 or 12 bytes), and the operation code byte splits into command code and group code and back without loss.", "quantifier": "every command class and every argument for which it packs; every opcode byte", "why_tests_cant": "All arguments of all commands.", "anchors": ["src/infi/asi/cdb/operation_code.py:OperationCode", "src/infi/asi/cdb/__init__.py:CDB.create_datagram"]}
{"id": "C43", "title": "Out-of-range arguments are never silently truncated", "statement": "A command object whose numeric field does not fit its field in the CDB (negative or too large) raises when constructed or packed; it never yields a CDB with a different value. The limits that the classes assert (addresses and lengths that are too large, buffers that are not whole blocks, an unknown RTPG format, an allocation length of PERSISTENT RESERVE IN below 8) are refused by the constructor with AssertionError, but those of COMPARE AND WRITE only by execute; whatever else does not fit is refused with an exception of infi.instruct when it is packed, that is by execute, but for the parameter lists that UNMAP, PERSISTENT RESERVE OUT, RESERVE(10) and RELEASE(10) pack in the constructor.", "quantifier": "every command class and every integer argument", "why_tests_cant": "All integers.", "anchors": ["src/infi/asi/cdb/read.py", "src/infi/asi/cdb/write.py", "src/infi/asi/cdb/inquiry/__init__.py:InquiryCommand", "src/infi/asi/cdb/report_luns.py:ReportLunsCommand"]}
{"id": "C44", "title": "PERSISTENT RESERVE OUT sends the requested action, type and keys", "statement": "For every service action 0..8 the CDB carries the service action and reservation type, its parameter list length equals the length of the parameter list sent (24, or 24 + TransportID length for REGISTER AND MOVE), and the parameter list carries the two reservation keys and the ALL_TG_PT and SPEC_I_PT bits. The APTPL bit of the basic parameter list is always sent as 0, whatever the caller passed.", "quantifier": "every service action, type, keys and flags", "why_tests_cant": "2^128 keys; all flags.", "anchors": ["src/infi/asi/cdb/persist/output.py:PersistentReserveOutCommand", "src/infi/asi/cdb/persist/output.py:PersistentReserveOutCommandBasicParameterList"]}
{"id": "C45", "title": "PERSISTENT RESERVE IN: READ KEYS", "statement": "For every response of at least 8 bytes the generation is returned, required_allocation_length() is the size needed to get all keys, and key_list holds all the device's keys in order exactly if the response was not truncated (otherwise it is left unset rather than partial).", "quantifier": "every list of keys, every generation, every truncation of the response", "why_tests_cant": "Unbounded key lists and all truncation points.", "anchors": ["src/infi/asi/cdb/persist/input.py:PersistentReserveInReadKeysResponse"]}
{"id": "C46", "title": "PERSISTENT RESERVE IN: READ RESERVATION", "statement": "For every response, key, scope and type are returned as sent by the device if the response has at least 24 bytes (reservation held) and are unset if it has only the 8-byte header (no reservation). A response of exactly 21 bytes makes parsing fail although type and scope are guarded by a length check.", "quantifier": "every response of every length", "why_tests_cant": "All lengths and contents.", "anchors": ["src/infi/asi/cdb/persist/input.py:PersistentReserveInReadReservationResponse"]}
{"id": "C47", "title": "RESERVE(10)/RELEASE(10) third party addressing", "statement": "For every third_party_device_id that can be packed: 0 (and, silently, every negative id) sends no third party; 1..254 is carried in the CDB with the 3RDPTY bit and no parameter list; larger ids are carried in an 8-byte parameter list with LONGID and 3RDPTY set and parameter list length 8. No two ids from 0 on produce the same CDB and parameter list.", "quantifier": "every device id (all integers)", "why_tests_cant": "All ids, boundary at 255.", "anchors": ["src/infi/asi/cdb/reserve.py:Reserve10Command", "src/infi/asi/cdb/release.py:Release10Command"]}
{"id": "C48", "title": "INQUIRY, RECEIVE DIAGNOSTIC RESULTS, LOG SENSE, REPORT LUNS, RTPG, RECEIVE COPY, TUR CDBs", "statement": "Each of these commands, for all arguments for which it packs, is decoded by a conforming device to the same page codes, flags, service action and allocation length, and the transport is asked for exactly the allocation length announced in the CDB.", "quantifier": "every argument of every one of these commands", "why_tests_cant": "All arguments.", "anchors": ["src/infi/asi/cdb/inquiry/__init__.py:InquiryCommand", "src/infi/asi/cdb/diagnostic/__init__.py:ReceiveDiagnosticResultCommand", "src/infi/asi/cdb/log_sense.py:LogSenseCommand", "src/infi/asi/cdb/rtpg.py:RTPGCommand", "src/infi/asi/cdb/receive_copy_operating_parameters.py", "src/infi/asi/cdb/tur.py"]}
{"id": "C49", "title": "Fixed-layout responses decode to the standard's fields", "statement": "For every response buffer of sufficient length, each decoded field of the fixed-layout pages (standard INQUIRY, block limits, logical block provisioning, Veritas, receive copy operating parameters, PR report capabilities, sense data, SES status elements) equals the big-endian bit field the standard defines at that place, except for the fields listed as deviations.", "quantifier": "every buffer content", "why_tests_cant": "All buffer contents; hundreds of fields.", "anchors": ["src/infi/asi/cdb/inquiry/standard.py", "src/infi/asi/cdb/inquiry/vpd_pages/block_limits.py", "src/infi/asi/cdb/inquiry/vpd_pages/logical_block_provisioning.py", "src/infi/asi/cdb/receive_copy_operating_parameters.py", "src/infi/asi/cdb/persist/input.py"]}
{"id": "C50", "title": "Pack then unpack is the identity for fixed-layout buffers", "statement": "For every fixed-layout buffer class whose fields do not overlap, packing any in-range field values and unpacking the result gives the same values back, and fields never disturb each other.", "quantifier": "every class with non-overlapping fields and every in-range assignment of values", "why_tests_cant": "All value assignments.", "anchors": ["src/infi/asi/cdb/control.py:ControlBuffer", "src/infi/asi/cdb/inquiry/vpd_pages/block_limits.py", "src/infi/asi/cdb/receive_copy_operating_parameters.py"]}
{"id": "C51", "title": "Device identification page: descriptors are recovered one by one", "statement": "For every list of conforming designation descriptors, unpacking the page yields exactly these descriptors in order with their code set, protocol, association, type and identifier values; a descriptor with an unsupported NAA or EUI-64 length makes unpacking fail rather than misalign.", "quantifier": "every list of descriptors of any length and kind", "why_tests_cant": "Unbounded lists of variable-length descriptors.", "anchors": ["src/infi/asi/cdb/inquiry/vpd_pages/device_identification.py", "src/infi/asi/cdb/inquiry/vpd_pages/designators.py:determine_designator"]}
{"id": "C52", "title": "T10 vendor designators do not survive pack/unpack", "statement": "Packing a T10 vendor id designator announces a length that does not count the 8-byte vendor field: for every non-empty vendor specific identifier unpacking the packed bytes loses the last 8 bytes of it.", "quantifier": "every vendor id and identifier", "why_tests_cant": "All identifiers.", "anchors": ["src/infi/asi/cdb/inquiry/vpd_pages/designators.py:T10VendorIDDesignator"]}
{"id": "C53", "title": "Unit serial number and supported pages", "statement": "Unpacking the unit serial number page yields exactly the page_length (low byte) bytes after the header, without trailing spaces and zeros, and the supported pages page yields exactly the announced page codes, for every buffer; pack then unpack of a serial number of at most 255 bytes gives it back, again without trailing spaces and zeros.", "quantifier": "every buffer and every serial number", "why_tests_cant": "All lengths.", "anchors": ["src/infi/asi/cdb/inquiry/vpd_pages/unit_serial_number.py", "src/infi/asi/cdb/inquiry/vpd_pages/supported_pages.py"]}
{"id": "C54", "title": "Standard INQUIRY: extended data present exactly when announced", "statement": "The extended part is unpacked exactly if additional_length exceeds 31, the version descriptors returned are the first min(8, available) 16-bit values at bytes 58.., and additional_length written by pack equals the number of bytes that follow it.", "quantifier": "every buffer, every extended data", "why_tests_cant": "All lengths.", "anchors": ["src/infi/asi/cdb/inquiry/standard.py"]}
{"id": "C55", "title": "SES configuration page: enclosures, type headers and texts", "statement": "For every configuration page of a conforming enclosure in which every count and text length is at most 127, unpacking yields exactly one enclosure descriptor per subenclosure, all type descriptor headers in order and the text of each. Counts above 127 are read as negative numbers: the type headers beyond the resulting sum are lost, and with more than 127 secondary subenclosures all three lists are empty.", "quantifier": "every list of enclosures, headers and texts", "why_tests_cant": "Unbounded nested lists.", "anchors": ["src/infi/asi/cdb/diagnostic/ses_pages/configuration.py"]}
{"id": "C56", "title": "SES status and element descriptor pages follow the configuration", "statement": "Given the configuration page, the status page yields for each type header one overall and possible_elements_num individual elements, taken from the right 4-byte slots, decoded with the element layout of that type; the element descriptor page yields the texts of each element in the same shape. This holds for types of at most 127 elements; of a type with more, no individual element is returned and the following types are read from the wrong place.", "quantifier": "every configuration (list of type headers) and every page content", "why_tests_cant": "Unbounded nested lists.", "anchors": ["src/infi/asi/cdb/diagnostic/ses_pages/enclosure_status.py", "src/infi/asi/cdb/diagnostic/ses_pages/element_descriptor.py"]}
{"id": "C57", "title": "Sense data: key, ASC and ASCQ come from the right bytes", "statement": "For every sense buffer, response codes 70h/71h are decoded as fixed format with sense key, ASC, ASCQ, information and command-specific information from the places SPC-4 defines; 72h/73h are recognised as descriptor format with sense key, ASC, ASCQ from their places; every other response code yields no sense object.", "quantifier": "every sense buffer", "why_tests_cant": "All buffers.", "anchors": ["src/infi/asi/sense/__init__.py:get_sense_object_from_buffer"]}
{"id": "C58", "title": "Descriptor format sense: descriptor list is read from the wrong byte", "statement": "SPC-4 puts ADDITIONAL SENSE LENGTH at byte 7; the code takes byte 6 as the length. For every conforming descriptor-format buffer (byte 6 zero) the descriptor list is empty, whatever descriptors the device sent.", "quantifier": "every conforming descriptor-format sense buffer", "why_tests_cant": "All buffers.", "anchors": ["src/infi/asi/sense/__init__.py:SCSISenseDataDescriptorBased"]}
{"id": "C59", "title": "ASC/ASCQ names", "statement": "Every ASC/ASCQ pair maps to exactly one text; the ranges 40h/80h..FEh, 4Dh/00h..FEh and 70h/00h..FEh map to texts showing the qualifier, and the qualifier FFh of these three codes falls through to 'Unknown code'.", "quantifier": "all 65536 code pairs", "why_tests_cant": "Exhaustive over the code space.", "anchors": ["src/infi/asi/sense/asc.py"]}
{"id": "C60", "title": "REPORT TARGET PORT GROUPS", "statement": "For every length-only response with fewer than 128 ports per group the groups and their ports are returned in order with their states. For extended-header responses the descriptors are read one byte too early (from byte 7 instead of 8): the result is that of a length-only response that begins with the last byte of the header. A group with 128 ports or more is shown without ports and with a negative number of them, and its ports are then read as if they were groups.", "quantifier": "every list of groups and ports", "why_tests_cant": "Unbounded nested lists.", "anchors": ["src/infi/asi/cdb/rtpg.py"]}
{"id": "C61", "title": "Page dispatch", "statement": "get_vpd_page / get_ses_page return, for every page code, a command that requests exactly that page code, and get_vpd_page_data / get_ses_page_data the matching parser: the specific one for the supported codes and the generic one for all others.", "quantifier": "every page code 0..255", "why_tests_cant": "All page codes.", "anchors": ["src/infi/asi/cdb/inquiry/vpd_pages/__init__.py:get_vpd_page", "src/infi/asi/cdb/diagnostic/ses_pages/__init__.py:get_ses_page"]}
{"id": "C62", "title": "Synchronous execution, end to end", "statement": "sync_wait(command.execute(executer)) on an idle Linux sg executer sends exactly one request containing the command's CDB, and returns the parsed response if the device reports success or raises the exception its status is classified as; afterwards the executer is idle again. If the OS fails to send or to receive, that OS error is raised.", "quantifier": "every command of the library, every executer configuration, every device answer", "why_tests_cant": "Composition of four layers over all inputs.", "anchors": ["src/infi/asi/__init__.py:CommandExecuterBase.call", "src/infi/asi/linux.py:LinuxCommandExecuter", "src/infi/asi/coroutines/sync_adapter.py:sync_wait", "src/infi/asi/cdb/inquiry/__init__.py:InquiryCommand.execute"]}
{"id": "C63", "title": "A failing I/O token bypasses the generator that yielded it", "statement": "When the result of an I/O token yielded by a coroutine run with sync_wait raises, the generator that yielded the token is not resumed, so no handler around its yield sees the exception; it is thrown into the generator that called it, and from there outwards as in C13, and leaves sync_wait if none of them handles it.", "quantifier": "every stack of generators and every token failure", "why_tests_cant": "All generator stacks and failures.", "anchors": ["src/infi/asi/coroutines/sync_adapter.py:SyncCoroutine", "src/infi/asi/coroutines/sync_adapter.py:Coroutine.loop"]}
{"id": "C64", "title": "A failing I/O token aborts all commands of async_wait", "statement": "When waiting for several commands with async_wait, a token whose result raises aborts the whole wait with that exception, whatever the other commands were doing; no generator of any command sees the exception, and none of the other commands' results is returned.", "quantifier": "every list of commands, every state of the other commands", "why_tests_cant": "All schedules.", "anchors": ["src/infi/asi/coroutines/sync_adapter.py:AsyncCoroutine", "src/infi/asi/win32.py:Win32AsyncReactor.wait_for"]}
{"id": "C65", "title": "The queue bound holds for concurrent use", "statement": "For any number of send, call and wait operations run concurrently by async_wait on one executer, whatever the order in which the OS completes the I/Os, at most max_queue_size requests are waiting and no two waiting requests share a packet id.", "quantifier": "every finite list of operations, every schedule, every OS layer that leaves the executer's own attributes alone", "why_tests_cant": "All interleavings of unboundedly many operations.", "anchors": ["src/infi/asi/__init__.py:CommandExecuterBase", "src/infi/asi/win32.py:Win32AsyncReactor.wait_for"]}
{"id": "C66", "title": "An error while receiving leaves the request waiting", "statement": "If the OS layer raises while the response to call() is received, call() raises that exception but the request keeps its slot in the queue: it still counts as waiting. An executer with a single slot rejects every later command.", "quantifier": "every executer with a free slot, every command and every exception", "why_tests_cant": "All states and exceptions.", "anchors": ["src/infi/asi/__init__.py:CommandExecuterBase.call", "src/infi/asi/__init__.py:CommandExecuterBase._process_pending_response"]}
{"id": "C67", "title": "Linux: a clean response for an unknown packet id", "statement": "If the sg driver hands over a response without error status whose packet id is not waiting, receiving raises AttributeError instead of the AsiInternalError documented for unknown responses, and the waiting requests are unchanged.", "quantifier": "every driver, every set of waiting requests, every packet id", "why_tests_cant": "All states and responses.", "anchors": ["src/infi/asi/linux.py:LinuxCommandExecuter._handle_raw_response", "src/infi/asi/__init__.py:CommandExecuterBase._process_pending_response"]}
{"id": "C68", "title": "Linux: sense data that cannot be parsed", "statement": "If the device reports a check condition with sense data that the sense parser rejects, call() raises the parser's exception rather than AsiCheckConditionError, and the request keeps its slot in the queue.", "quantifier": "every device answer, every parser error", "why_tests_cant": "All sense buffers.", "anchors": ["src/infi/asi/__init__.py:CommandExecuterBase._check_condition", "src/infi/asi/linux.py:LinuxCommandExecuter._handle_raw_response"]}
{"id": "C69", "title": "Solaris: failing ioctl", "statement": "If the USCSICMD ioctl fails, the caller gets IOError whatever status and sense data the device returned, although the device executed the command; the request is withdrawn from the queue.", "quantifier": "every command, every device answer", "why_tests_cant": "All answers.", "anchors": ["src/infi/asi/solaris.py:SolarisCommandExecuter._os_send"]}
{"id": "C70", "title": "Windows: an asynchronous transfer that fails after it was started", "statement": "Over an asynchronous handle the result of GetOverlappedResult is ignored: if the transfer fails after it was started and the request block still has status zero, the command is reported as successful.", "quantifier": "every command, every driver", "why_tests_cant": "All driver behaviours.", "anchors": ["src/infi/asi/win32.py:WinAsyncIOToken.get_result"]}
{"id": "C71", "title": "Windows: an asynchronous request that completes at once", "statement": "Over an asynchronous handle the command is reported as failed with AsiOSError whenever DeviceIoControl does not answer 'pending', also when it completed the command successfully at once; the request is withdrawn from the queue.", "quantifier": "every command, every driver", "why_tests_cant": "All driver behaviours.", "anchors": ["src/infi/asi/win32.py:Win32AsyncFile.ioctl"]}
{"id": "C72", "title": "Windows: failing DeviceIoControl", "statement": "If DeviceIoControl fails on a synchronous handle, call() raises AsiOSError and the request is withdrawn from the queue, so the executer stays usable.", "quantifier": "every command, every driver, every state of the executer with a free slot", "why_tests_cant": "All states.", "anchors": ["src/infi/asi/win32.py:Win32File.ioctl", "src/infi/asi/win32.py:Win32CommandExecuter._os_send"]}
{"id": "C73", "title": "Closing a file object twice", "statement": "Win32File.close releases the handle once; every further close is a no-op that succeeds. UnixFile.close passes every close to the OS: the second one fails with EBADF (or would close whatever got the same descriptor meanwhile).", "quantifier": "every handle and every set of open handles", "why_tests_cant": "All handle tables.", "anchors": ["src/infi/asi/win32.py:Win32File.close", "src/infi/asi/unix.py:UnixFile.close"]}
{"id": "C74", "title": "Joined bit ranges are written in two opposite orders", "statement": "Whichever end of a number infi.instruct gives to the first of several joined bit ranges, one of the two fields is decoded wrongly for some data: the IEEE company id of an NAA 5 designator (written lowest range first) or the fan speed of a cooling element (written highest range first).", "quantifier": "both conventions of joining bit ranges", "why_tests_cant": "A test shows one convention; the claim is that no convention makes both right.", "anchors": ["src/infi/asi/cdb/inquiry/vpd_pages/designators.py", "src/infi/asi/cdb/diagnostic/ses_pages/enclosure_status.py"]}
{"id": "C75", "title": "Windows: concurrent calls are the calls one after the other", "statement": "async_wait of several calls on one idle asynchronous Windows executer, at most as many as its queue holds, has the effect of the target executing the commands one after the other in the order the OS signals them, and each caller gets the answer to its own command in the order of the arguments; if a command fails, its error is raised in place of all answers and nothing later is executed to completion.", "quantifier": "every list of commands, every target, every order of signalling, every size of the queue", "why_tests_cant": "All interleavings and all queue sizes.", "anchors": ["src/infi/asi/coroutines/sync_adapter.py:async_wait", "src/infi/asi/__init__.py:CommandExecuterBase.call", "src/infi/asi/win32.py:WinAsyncIOToken.get_result"]}
{"id": "C76", "title": "Whatever the device returns, parsing ends with an object or a library error", "statement": "For any bytes of any length, execute() of a command that parses its answer yields an object of the class belonging to the command (page code, service action, format), or raises an error of the parsing library, for REPORT LUNS also the documented unsupported-LUN errors; it never loops, never touches data that is not there and raises nothing else. No data at all is a TypeError. The same holds for sense data. Exceptions: PERSISTENT RESERVE IN with an unknown service action raises AssertionError only after the device has answered; REPORT LUNS with an allocation length below 16 returns the raw data.", "quantifier": "every byte string, every page code, service action and allocation length", "why_tests_cant": "Hostile or broken devices return arbitrary data.", "anchors": ["src/infi/asi/cdb/inquiry/__init__.py:InquiryCommand.execute", "src/infi/asi/cdb/diagnostic/__init__.py", "src/infi/asi/cdb/persist/input.py", "src/infi/asi/cdb/rtpg.py", "src/infi/asi/cdb/report_luns.py", "src/infi/asi/sense/__init__.py:get_sense_object_from_buffer"]}
{"id": "C77", "title": "Commands without a response class hand over the device's data", "statement": "Reads, writes, WRITE SAME, COMPARE AND WRITE, UNMAP, LOG SENSE, RESERVE, RELEASE and PERSISTENT RESERVE OUT yield exactly what executer.call returned (data or None), whatever attributes were set; TEST UNIT READY yields True for every answer that is not an error.", "quantifier": "every command object, every answer", "why_tests_cant": "All commands and answers.", "anchors": ["src/infi/asi/cdb/read.py", "src/infi/asi/cdb/write.py", "src/infi/asi/cdb/log_sense.py", "src/infi/asi/cdb/tur.py:TestUnitReadyCommand.execute"]}
{"id": "C78", "title": "ATA Information page", "statement": "Every ATA Information page of at least 57 bytes decodes to the fields of SAT-3, the texts with the bytes of each word exchanged, with these deviations: the model number lacks word 46, its last two characters; the sector count of the device signature has its bytes exchanged (right only if both are equal and below 80h); whole bytes are signed numbers. Shorter pages raise an error of the library.", "quantifier": "every page", "why_tests_cant": "All pages.", "anchors": ["src/infi/asi/cdb/inquiry/vpd_pages/ata_information.py"]}
{"id": "C79", "title": "Error texts tell the status", "statement": "Every AsiSCSIError that an executer makes of a status has a text with the numbers of the statuses in it, on Linux and AIX also the name of the SCSI status: on Linux the SCSI, driver and host status, on Solaris the status, on AIX validity, bus and adapter status, on Windows the status. Deviations: on Linux, if only the driver complains, the SCSI status (always good) is given as the driver's, the driver's as the host's, and the host's is lost; on Solaris the reason is always given as 0; on AIX the bus status is cut to bits 1 to 4, so that TASK ABORTED is given as good and TASK SET FULL as busy.", "quantifier": "every status, host status, driver status, validity and adapter status", "why_tests_cant": "All combinations of codes.", "anchors": ["src/infi/asi/linux.py:prettify_status", "src/infi/asi/linux.py:LinuxCommandExecuter._handle_raw_response", "src/infi/asi/solaris.py:SolarisCommandExecuter._handle_raw_response", "src/infi/asi/aix.py:AixAsiSCSIError", "src/infi/asi/win32.py:Win32CommandExecuter._os_receive"]}
{"id": "C80", "title": "Structures lie in memory as the headers say", "statement": "The ctypes structures have their fields where the C structures of the operating systems have their members, and their sizes: sg_io_hdr, uscsi_cmd and sc_passthru in 64-bit and 32-bit programs and both byte orders, SCSI_PASS_THROUGH_DIRECT (imitated by a packed structure with explicit paddings, the sense buffer right behind it) and OVERLAPPED on 64-bit and 32-bit Windows. The ioctl codes are those the headers compute.", "quantifier": "both pointer sizes, both byte orders, every event handle", "why_tests_cant": "Tests run on one platform; a wrong offset shows as memory corruption.", "anchors": ["src/infi/asi/linux.py:SGIO", "src/infi/asi/solaris.py:SCSICMD", "src/infi/asi/aix.py:sc_passthru", "src/infi/asi/win32.py:SCSIPassThroughDirect", "src/infi/asi/win32.py:overlapped_struct_from_event"]}
{"id": "C81", "title": "Drivers find the request, executers find the answer", "statement": "For every command with a descriptor block of less than 256 bytes and less than 4 GiB of data, the memory of the structure that create() makes holds, at the members of the C structure, the length of the descriptor block and the address of a buffer with it (or the block itself, zero-padded), 255 bytes for sense data, direction, length and address of the data, timeout and packet id, and zero at every other member; on Windows SenseInfoOffset leads to the sense buffer. Conversely, whatever bytes a driver leaves, every attribute of the object that from_string makes is the number found at the member of that name; fewer bytes than the structure has raise ValueError. On Solaris status and reason are two bytes whose order depends on the machine; the code reads them as one short and its low byte is the status on every machine (the reason it computes is always 0).", "quantifier": "every command within those sizes, timeout and packet id, heap contents, placement of buffers; every content of the answered structure", "why_tests_cant": "All bytes of all structures on platforms the tests never run on.", "anchors": ["src/infi/asi/linux.py:SGIO.create", "src/infi/asi/linux.py:SGIO.from_string", "src/infi/asi/solaris.py:SCSICMD.create", "src/infi/asi/solaris.py:SolarisCommandExecuter._handle_raw_response", "src/infi/asi/aix.py:sc_passthru.create", "src/infi/asi/win32.py:SCSIPassThroughDirect.create"]}
{"id": "C82", "title": "The library works end to end on every system", "statement": "Every command of the library whose arguments fit its fields and that moves less than 4 GiB, executed on an idle executer of Linux, Solaris, AIX or Windows: the device understands the command that the user meant, and the user gets the device's answer as the executer of the system classifies it, parsed by the class of the command and with the library's own sense data parser behind it, for every device whose sense data is conforming (and, on Solaris, for ioctls that succeed and statuses of one byte; on Windows, for requests that DeviceIoControl carries out). Arguments that do not fit raise, and nothing is sent.", "quantifier": "every command class and arguments, every device, every sequence number and state of an idle executer, four systems", "why_tests_cant": "The tests mock the drivers and use one platform and a few commands.", "anchors": ["src/infi/asi/linux.py:LinuxCommandExecuter", "src/infi/asi/solaris.py:SolarisCommandExecuter", "src/infi/asi/aix.py:AixCommandExecuter", "src/infi/asi/win32.py:Win32CommandExecuter", "src/infi/asi/cdb/__init__.py:CDBBuffer.execute"]}
{"id": "C83", "title": "Programs are portable", "statement": "Where a device answers with GOOD and all the data asked for, or with CHECK CONDITION and conforming sense data, a program of any number of commands gets the same results and leaves the device in the same state on Linux, Solaris, AIX and Windows. It is not so for other answers: less data than asked for is filled up with zeros or not, RESERVATION CONFLICT has an exception of its own on Linux alone; CONDITION MET raises everywhere.", "quantifier": "every sequence of command objects (also ones that cannot be constructed or packed), every device state machine answering plainly", "why_tests_cant": "Comparing the platforms needs four machines and all devices.", "anchors": ["src/infi/asi/linux.py:LinuxCommandExecuter._handle_raw_response", "src/infi/asi/solaris.py:SolarisCommandExecuter._handle_raw_response", "src/infi/asi/aix.py:AixCommandExecuter._handle_raw_response", "src/infi/asi/win32.py:Win32CommandExecuter._handle_raw_response"]}
{"id": "C84", "title": "Programs on the SG_IO executer", "statement": "On LinuxIoctlCommandExecuter every command of the library arrives at the device as it was meant, and programs of READs and WRITEs on a device that never fails behave as on an array of blocks. But every command ends in success with the data that came (zeros where none came): no program, however long, can tell a device from one that changes state and sends data alike and answers with any other statuses and sense data. A refused WRITE followed by a READ gives two successes and zeros.", "quantifier": "every command, program, pair of devices with the same data, state of an idle executer", "why_tests_cant": "Tests cannot show that no program notices the failures.", "anchors": ["src/infi/asi/linux.py:LinuxIoctlCommandExecuter", "src/infi/asi/cdb/__init__.py:CDBBuffer.execute"]}
{"id": "C85", "title": "Linux: several commands in flight", "statement": "On LinuxCommandExecuter a program may send() commands with callbacks, call() others and wait() in any mixture while device and driver execute the accepted requests and hand over their answers in any order. As long as no request stays outstanding while max_queue_size others are sent, every send beyond the queue size is refused, every callback of a sent command runs exactly once with the answer to its own command (data, sense and status from its own buffers), call() gives the answer to its own command, and when nothing is outstanding the executer is idle again. In particular a batch of up to max_queue_size commands followed by wait() is always served correctly. A request that stays outstanding longer loses its slot: the answer to it is then reported as a success of the newer command, with zeros for data, and its callback never runs.", "quantifier": "every program, device state machine, order of execution and completion (a script of events of any length), queue size up to 2^31, memory contents", "why_tests_cant": "Completion orders and memory interleavings of a real driver cannot be provoked in unit tests.", "anchors": ["src/infi/asi/__init__.py:CommandExecuterBase.send", "src/infi/asi/__init__.py:CommandExecuterBase.wait", "src/infi/asi/__init__.py:CommandExecuterBase.call", "src/infi/asi/linux.py:LinuxCommandExecuter", "src/infi/asi/linux.py:SGIO.create"]}
{"id": "C86", "title": "Windows: how many commands can be waited for", "statement": "async_wait on Windows delivers the result of every command, in the order of the arguments, for every order in which the transfers complete, as long as at most 64 commands are waiting, each has an event of its own and one of them completes within the 30 seconds of each wait. With 65 or more waiting commands, with a command whose event could not be created, or when nothing completes in time, the whole async_wait raises AsiWin32OSError instead: no result is delivered, and on an executer all the requests that were already handed to the system stay in its queue.", "quantifier": "every list of coroutines with any number of tokens and any private states, every number of commands, every order of completion the system may choose, every assignment of event handles, every executer state with an empty queue and every target", "why_tests_cant": "More than 64 simultaneous transfers, time outs and failing CreateEventW need a Windows kernel and cannot be provoked reliably.", "anchors": ["src/infi/asi/win32.py:WaitForMultipleObjects", "src/infi/asi/win32.py:Win32AsyncReactor._wait_for_events", "src/infi/asi/win32.py:Win32AsyncReactor.wait_for", "src/infi/asi/win32.py:WinAsyncIOToken", "src/infi/asi/coroutines/sync_adapter.py:async_wait"]}
{"id": "C87", "title": "Hosts that share a disk with persistent reservations", "statement": "Several hosts, each on any of the four operating systems, that register, reserve, release, preempt, clear, read keys and the reservation and read and write blocks through this library see exactly what SPC-4 prescribes: GOOD gives None or the parsed data, RESERVATION CONFLICT raises AsiSCSIError, a rejected request raises AsiCheckConditionError with the sense data; the device ends with the prescribed registrations, reservation and blocks. A host that is shut out (fenced) cannot change anything: all its writes and reservation requests raise AsiSCSIError and the other hosts see what they would see without it. Preempting the holder takes the reservation over. Without a reservation READ RESERVATION shows key 0 and type 0 on Linux, Solaris and AIX and None on Windows.", "quantifier": "every number of hosts and every assignment of systems to them, every program of any length over these commands, every initial state of registrations, reservation and blocks, every block size and capacity, every conforming disk", "why_tests_cant": "Needs several machines with different operating systems on one shared disk; the sequences of reservation commands are unbounded.", "anchors": ["src/infi/asi/cdb/persist/output.py:PersistentReserveOutCommand", "src/infi/asi/cdb/persist/input.py:PersistentReserveInCommand", "src/infi/asi/cdb/read.py", "src/infi/asi/cdb/write.py", "src/infi/asi/__init__.py:CommandExecuterBase", "src/infi/asi/linux.py:OSCommandExecuter._os_receive", "src/infi/asi/solaris.py:OSCommandExecuter._os_receive", "src/infi/asi/aix.py:OSCommandExecuter._os_receive", "src/infi/asi/win32.py:OSCommandExecuter._os_receive"]}
{"id": "C88", "title": "User coroutines that decide from results what to do next", "statement": "A user coroutine that yields command.execute(executer) and other such coroutines, catches exceptions, and chooses every next command from the results and exceptions so far, ends under sync_wait with exactly the value or exception, and leaves the device in exactly the state, that the same program has when each command is one exchange with the device; calling a coroutine is the same as having its statements in place. So retrying after CHECK CONDITION works; reading keys with any first allocation length and again with required_allocation_length() gives all keys if there are at most 8190, and raises without a second exchange if there are more; READ FULL STATUS can never be fetched like that (required_allocation_length raises NameError); all LUNs are obtained by first reading the 8-byte header, while one REPORT LUNS with too short an allocation length raises.", "quantifier": "every program (finite on every path, arbitrary branching on results, any depth of nested coroutines), every device and device state, each of the four operating systems, every number of keys and LUNs, every first allocation length", "why_tests_cant": "Programs, nesting depths and devices are unbounded; tests run a few fixed programs on one system.", "anchors": ["src/infi/asi/coroutines/sync_adapter.py:Coroutine.loop", "src/infi/asi/__init__.py:CommandExecuterBase.call", "src/infi/asi/cdb/persist/input.py:PersistentReserveInReadKeysResponse.required_allocation_length", "src/infi/asi/cdb/report_luns.py:ReportLunsCommand.execute", "src/infi/asi/cdb/tur.py:TestUnitReadyCommand.execute"]}
{"id": "C89", "title": "User coroutines run together by async_wait", "statement": "async_wait on Windows, given any number of user coroutines (as in C88: they branch on results, catch exceptions and call other coroutines), each with its own device opened for asynchronous use, returns the list of exactly the values the coroutines have when run alone, in the order of the arguments, and leaves every device as that coroutine alone leaves it, whatever the order in which the transfers complete (with WaitForMultipleObjects: up to 64). If some of them raise, async_wait raises the exception of one of those and no result is handed over, not even of those that had finished; with each coroutine in its own try ... except every one gets its own result or exception.", "quantifier": "every number of coroutines, every program, every device and device state, every order of completion", "why_tests_cant": "The interleavings of several coroutines grow without bound; tests complete transfers in one order.", "anchors": ["src/infi/asi/win32.py:Win32AsyncReactor.wait_for", "src/infi/asi/win32.py:Win32AsyncReactor._wait_for_events", "src/infi/asi/coroutines/sync_adapter.py:async_wait", "src/infi/asi/coroutines/sync_adapter.py:AsyncCoroutine", "src/infi/asi/win32.py:WinAsyncIOToken.get_result"]}
{"id": "C90", "title": "Assigned attributes reach their places in the CDB", "statement": "Assigning an attribute of a command object before execute() (flags, group numbers, addresses, lengths, reserved fields, the control byte) to a value that fits writes it to exactly the bits that the standard gives to that field of that command, whatever was assigned before, and changes neither another bit of the CDB nor the data to write; only the transfer length of a READ and an allocation length also change the number of bytes read. A value that does not fit raises and nothing is sent. The control byte is 0 unless set, and has NACA in bit 2 and the vendor specific bits in bits 6 and 7; LOG SENSE, RECEIVE DIAGNOSTIC RESULTS, PERSISTENT RESERVE IN and OUT silently ignore an assigned control.", "quantifier": "all 28 commands, all arguments, all attributes, all values, all previous assignments", "why_tests_cant": "Each command has up to thirteen fields with up to 2^64 values; a wrong bit position shows only with non-default settings that no test uses.", "anchors": ["src/infi/asi/cdb/control.py:Control", "src/infi/asi/cdb/read.py:Read16Command", "src/infi/asi/cdb/reserve.py:Reserve10Command", "src/infi/asi/cdb/log_sense.py:LogSenseCommand", "src/infi/asi/cdb/__init__.py:CDBBuffer"]}
{"id": "C91", "title": "Which assignments count, and reusing a command object", "statement": "Only the attributes of the class's CDB fields have an effect: assigning any other name (group_number on UNMAP, which calls it GROUP_NUMBER; rdprotect on READ(16); logical_block_address on READ(6) and WRITE(6)) leaves the request as it was. For each attribute the last assignment counts, and assignments to different attributes can be made in any order. Assigning logical_block_address on READ, WRITE, WRITE SAME (10 and more bytes), COMPARE AND WRITE and READ CAPACITY objects gives the very request of an object constructed for that address; READ(6) and WRITE(6) objects silently go on at the old address.", "quantifier": "all commands, all arguments, all names, all sequences of assignments, all addresses that fit", "why_tests_cant": "The set of names and of sequences of assignments is infinite; that a misspelt name has no effect is a statement about all of them.", "anchors": ["src/infi/asi/cdb/unmap.py:UnmapCommand", "src/infi/asi/cdb/read.py:Read6Command", "src/infi/asi/cdb/write.py:Write6Command", "src/infi/asi/cdb/write.py:Write10Command", "src/infi/asi/cdb/compare_and_write.py:CompareAndWriteCommand"]}
{"id": "C92", "title": "How long a command may take", "statement": "Inside each context manager, on each system where it yields an executer, a command is answered if the device needs at most a fixed time and given up otherwise: 3 s under linux_sg and 30 s under linux_dm (and the others) on Linux, 30 s on Solaris and AIX, but 3000 s under linux_sg there, 10 s on Windows. A command given up raises (AsiSCSIError on Linux sg and AIX, IOError on Solaris, AsiOSError on Windows), except under linux_dm, where zeros are returned as data. An executer constructed with a timeout counts milliseconds on Linux and seconds on Solaris and AIX; on Solaris the number is reduced to 16 bits with a sign; with the sg executer reading gives up after 60 s whatever the timeout, and the command keeps its slot.", "quantifier": "all managers, all systems, all timeouts that fit the field, all commands, all devices, all durations", "why_tests_cant": "A test would have to wait for the limits on four systems with devices that are late by a chosen time; the table of limits is a product of five managers, four systems and three units.", "anchors": ["src/infi/asi/executers.py:linux_sg", "src/infi/asi/__init__.py:create_platform_command_executer", "src/infi/asi/linux.py:SGIO.create", "src/infi/asi/linux.py:LinuxIoctlCommandExecuter", "src/infi/asi/solaris.py:SCSICMD.create", "src/infi/asi/aix.py:sc_passthru.create", "src/infi/asi/win32.py:SCSIPassThroughDirect.create"]}
{"id": "C93", "title": "Standard INQUIRY data that a program builds or passes on", "statement": "pack() of a StandardInquiryDataBuffer gives the bytes of the standard if every number is given and fits, the texts are no longer than their places and the whole is at most 260 bytes, and raises a library error otherwise. Unpacking these bytes gives every attribute back; vendor specific bytes are filled up to 20, missing version descriptors with zeros if further bytes follow, and an empty list of descriptors reads as None. Data of a device that uses no reserved bits, unpacked and packed again, are the same bytes. More than 20 vendor specific bytes or 8 version descriptors are accepted but come back as other attributes or are lost.", "quantifier": "all numbers, texts and extensions within the places of the extension; all data of devices without reserved bits", "why_tests_cant": "25 attributes with nested optional parts, of which lengths decide how others are read; the existing tests pack a few objects.", "anchors": ["src/infi/asi/cdb/inquiry/standard.py:StandardInquiryDataBuffer", "src/infi/asi/cdb/inquiry/standard.py:StandardInquiryExtendedDataBuffer"]}
{"id": "C94", "title": "Commands constructed without optional arguments", "statement": "A command object constructed with its required arguments only asks for what the same object with the defaults written out asks for: blocks of 512 bytes, one block for WRITE SAME, no ranges for UNMAP, allocation lengths 36 (standard INQUIRY), 396 (LOG SENSE), 520 (PERSISTENT RESERVE IN) and 16384 (REPORT LUNS, REPORT TARGET PORT GROUPS), keys 0 and type WRITE EXCLUSIVE for PERSISTENT RESERVE OUT. Hence on every system READ KEYS shows all the keys if there are at most 64 and None otherwise; REPORT LUNS shows all simple LUNs if there are at most 2047 and raises otherwise; standard INQUIRY shows every field of the first 36 bytes and an empty extension; a READ of n blocks from a disk with larger blocks returns only the first 512 * n bytes of their content.", "quantifier": "all required arguments, all devices that answer these commands as the standards say, all four systems, all disk contents and block sizes from 512 bytes on", "why_tests_cant": "whether the defaults suffice depends on the device; the tests use devices with a few keys and LUNs and blocks of 512 bytes.", "anchors": ["src/infi/asi/cdb/read.py:Read10Command", "src/infi/asi/cdb/report_luns.py:ReportLunsCommand", "src/infi/asi/cdb/persist/input.py:PersistentReserveInCommand", "src/infi/asi/cdb/inquiry/standard.py:StandardInquiryCommand"]}
{"id": "C95", "title": "Discovering the pages of a device", "statement": "A coroutine that reads the page of supported VPD pages and then every page listed there gets, on every system, exactly the pages of the device with the objects of their classes, as long as every page fits into the allocation length of its class; the zeros that some systems leave behind the page change none of them, except: a logical block provisioning page without a provisioning group descriptor is shown with an empty vendor specific designator on Linux, Solaris and AIX and with None on Windows. A list of 249 or more pages raises; of a device identification page whose descriptors take more than 248 bytes the descriptors beyond are missing without an exception when one ends there, and nothing is read when the cut is within a header. A coroutine that reads the configuration of an enclosure and then the status or the descriptors of its elements shows each element with the type that it had in the first of the two pages; so if the configuration changes between the two commands, elements appear with types that they do not have, although the generation codes of the two pages differ.", "quantifier": "all lists of pages, all contents of these pages, all enclosures with counts up to 127, all states of the device, all four systems", "why_tests_cant": "what a system leaves in the unused part of a buffer, and a change between two commands, do not show in tests on one system with a quiet device.", "anchors": ["src/infi/asi/cdb/inquiry/vpd_pages/__init__.py:get_vpd_page", "src/infi/asi/cdb/inquiry/vpd_pages/logical_block_provisioning.py:LogicalBlockProvisioningVPDPageBuffer", "src/infi/asi/cdb/inquiry/vpd_pages/device_identification.py:DeviceIdentificationVPDPageCommand", "src/infi/asi/cdb/diagnostic/ses_pages/enclosure_status.py:EnclosureStatusDiagnosticPagesData"]}
{"id": "C96", "title": "Hosts that change a block at the same time", "statement": "Any number of hosts, on any of the four systems, that read a block, compute what it should become and send CompareAndWriteCommand with both, and start again when AsiCheckConditionError says MISCOMPARE, lose no change, however their commands interleave: at any time the block holds the changes of exactly those hosts whose coroutine has returned, one after the other; a host whose coroutine failed has changed nothing, and it fails only when more other hosts have succeeded than it had retries left, so with one retry less than there are hosts all succeed; no host ever waits for another one. A single CompareAndWriteCommand returns None and replaces the blocks when they were as given, and otherwise raises AsiCheckConditionError with the sense data of the device and changes nothing. With WRITE in its place both of two hosts can return and one change is lost.", "quantifier": "all numbers of hosts, all functions that compute the block, all numbers of retries, all interleavings of the commands, all devices that carry out COMPARE AND WRITE as SBC-3 says, all four systems for each host", "why_tests_cant": "a lost change needs a particular interleaving on real hardware shared by several hosts; the tests have one host and no COMPARE AND WRITE.", "anchors": ["src/infi/asi/cdb/compare_and_write.py:CompareAndWriteCommand", "src/infi/asi/cdb/__init__.py:CDBBuffer", "src/infi/asi/coroutines/sync_adapter.py:sync_wait"]}
{"id": "C97", "title": "Greenlets that share an executer", "statement": "When gevent is installed, every blocking call of the Linux and Windows executers is followed by sleep(0), and another greenlet may run there. A greenlet that is alone sees what it sees without gevent. Greenlets that call through one executer with room for all of them: on Windows every call has the answer of the target to its own command (or AsiOSError if DeviceIoControl failed), in whatever order they run; on Linux with the sg executer every call has the answer to its own command or raises a timeout, never the answer of another one, and ends after at most three turns; with turns in rounds and all commands answered, the calls that raise are exactly those whose answer comes as the j-th of all with j greater than their own number, although that answer has arrived, so that no call raises if the device answers in order; with the SG_IO executer a call has the data of its own command if somebody looked at the buffer while its request was the latest one, and raises AttributeError otherwise although its command was carried out.", "quantifier": "all numbers of greenlets, all orders of turns, all commands that fit, all targets, all orders in which the device executes and answers", "why_tests_cant": "the outcome depends on the order in which gevent runs the greenlets and the device answers; the tests check only that the sleep is called.", "anchors": ["src/infi/asi/__init__.py:gevent_friendly", "src/infi/asi/linux.py:LinuxCommandExecuter", "src/infi/asi/linux.py:LinuxIoctlCommandExecuter", "src/infi/asi/win32.py:WindowsCommandExecuter", "src/infi/asi/coroutines/sync_adapter.py:sync_wait"]}
{"id": "C98", "title": "Copying disks", "statement": "A coroutine that asks for the capacity (ReadCapacity10Command, and ReadCapacity16Command if that answers FFFFFFFFh) and reads all blocks in pieces of any size returns exactly the content of the disk, block after block, and changes nothing; one that writes data in pieces leaves the disk as a single WRITE of all the data would, and raises before anything is written if the disk is too small; so a disk copied to another one, on the same system or another of the four, has the same content there and the rest of the second disk is unchanged. One unreadable block makes the first coroutine end with AsiCheckConditionError and the sense data of the disk; one that catches that exception and reads block by block gets every readable block in its place. A coroutine that uses ReadCapacity10Command only returns, without error, only the first 2^32 blocks of a larger disk, and one that uses Read10Command ends with AssertionError on it.", "quantifier": "all disks, capacities up to 2^64 blocks, block sizes, piece sizes, contents, unreadable blocks, READ and WRITE commands that fit, and the four systems", "why_tests_cant": "disks of more than 2^32 blocks, all piece sizes and all patterns of unreadable blocks are out of reach of tests; the tests read single blocks.", "anchors": ["src/infi/asi/cdb/read_capacity.py:ReadCapacity10Command", "src/infi/asi/cdb/read_capacity.py:ReadCapacity16Command", "src/infi/asi/cdb/read.py:Read16Command", "src/infi/asi/cdb/read.py:Read10Command", "src/infi/asi/cdb/write.py:Write16Command", "src/infi/asi/coroutines/sync_adapter.py:sync_wait"]}
{"id": "C99", "title": "Transfers of 4 GiB and more", "statement": "Commands of any size can be issued on all systems, but on Linux (both executers) and Windows the request structure counts bytes in 32 bits. Below 4 GiB nothing is lost. A READ of n >= 2^32 bytes gets only the first n mod 2^32 bytes of the data: on Linux followed by zeros up to n bytes, without error, on Windows nothing more, and in both cases None if n is a multiple of 4 GiB; the bytes returned on Linux are those of the disk only if all bytes behind the first n mod 2^32 are zero. A WRITE hands only the first n mod 2^32 bytes to the device, though its CDB announces all blocks, and returns None as for a success if the device does not complain. On Solaris and AIX a READ returns all blocks and a WRITE writes all data, up to 2^64 bytes.", "quantifier": "all sizes, READ and WRITE commands, block sizes, disks, numbers of commands, and the executers of the four systems", "why_tests_cant": "tests transfer a few blocks; a transfer of 4 GiB needs such a device and as much memory, and the loss is silent.", "anchors": ["src/infi/asi/linux.py:SGIO.create", "src/infi/asi/linux.py:LinuxIoctlCommandExecuter", "src/infi/asi/win32.py:SCSIPassThroughDirect.create", "src/infi/asi/solaris.py:SCSICMD.create", "src/infi/asi/aix.py:sc_passthru.create", "src/infi/asi/cdb/read.py:Read16Command", "src/infi/asi/cdb/write.py:Write16Command"]}
{"id": "C100", "title": "READ FULL STATUS reports every registration, if there is room", "statement": "PERSISTENT RESERVE IN with service action READ FULL STATUS returns, for a device with any list of registrations, one descriptor for each, in order, with exactly the key, holder and all-target-ports bits, type, scope, relative target port and TransportID (protocol, format code, remaining bytes) reported, provided the response fits into the allocation length; None instead of the list if there are none. If it does not fit, the result depends on where it is cut: after a descriptor the others are silently missing; within a TransportID the last descriptor silently has a truncated one; elsewhere within a descriptor (up to the first byte of the TransportID) the call raises. With the default of 520 bytes and eleven Fibre Channel ports the last name is lost, with two iSCSI ports among them the call raises. A coroutine that asks for 8 bytes and then for additional_length + 8 gets all of them on Linux, Solaris, AIX and Windows, up to 65527 bytes of descriptors.", "quantifier": "all lists of registrations, TransportIDs of any length, contents of the reserved fields, allocation lengths, trailing bytes in the buffer, and the four systems", "why_tests_cant": "needs a device with many registered initiator ports of several transports; where the data is cut depends on all lengths, and most cuts raise nothing.", "anchors": ["src/infi/asi/cdb/persist/input.py:PersistentReserveInReadFullStatusResponse", "src/infi/asi/cdb/persist/input.py:PersistentReserveInReadFullStatusDescriptor", "src/infi/asi/cdb/persist/transport.py:TransportId", "src/infi/asi/cdb/persist/input.py:PersistentReserveInCommand"]}
{"id": "C101", "title": "Sending a command again because of its sense data", "statement": "A coroutine that catches AsiCheckConditionError, reads sense_key, additional_sense_code.code and .qualifier of its sense_obj and sends the command again if a condition of its own on these three holds, at most n times, does what it is meant to do on Linux, Solaris, AIX and Windows: the three are those the device reported, in fixed and in descriptor format, for current and deferred errors, and however few bytes of sense data were sent; the device gets the command again exactly as long as the condition holds, at most n more times; the coroutine ends with what the last answer alone would have given. But if the device sends no sense data, or data with another response code, sense_obj is None and reading its attributes raises AttributeError, which hides the check condition from the caller.", "quantifier": "all conditions on key, code and qualifier, numbers of attempts, commands, devices (as long as the status is GOOD, CHECK CONDITION or RESERVATION CONFLICT), sense data, and the four systems", "why_tests_cant": "devices report unit attentions and missing readiness rarely and each in its own format; tests with one recorded answer do not show what happens after several, or with short or absent sense data.", "anchors": ["src/infi/asi/errors.py:AsiCheckConditionError", "src/infi/asi/sense/__init__.py:get_sense_object_from_buffer", "src/infi/asi/__init__.py:CommandExecuterBase._check_condition", "src/infi/asi/coroutines/sync_adapter.py:sync_wait"]}
{"id": "C102", "title": "Which device a file object reaches, and which handles are left", "statement": "Whatever a program on Windows does with file objects (opening, using, closing twice, using after closing), and whatever handles Windows gives out, each request reaches the device the object was opened with as long as it is open, and raises AsiWin32OSError afterwards; closing again does nothing. On UNIX this holds for programs that leave closed objects alone. A closed UnixFile, however, keeps its descriptor: requests through it reach the device of whichever open file has that descriptor now (EBADF if none has), and closing it again closes that file. As POSIX gives out the smallest free number, this is so for every file that is opened right after another one was closed. The handles of the process are at any time those it had before and one for each open file; with asynchronous files of Windows also one event for each request that was ever made, which nothing closes.", "quantifier": "all sequences of openings, closings and requests, numbers of files and devices, handles that were open before, and ways of giving out handles", "why_tests_cant": "a test with a stale object needs another file that got the same number, and the request then succeeds; handles that are not closed show only when a process has run for long.", "anchors": ["src/infi/asi/unix.py:UnixFile", "src/infi/asi/win32.py:Win32File", "src/infi/asi/win32.py:Win32AsyncFile", "src/infi/asi/__init__.py:create_os_file"]}
{"id": "C103", "title": "Erasing disks and giving blocks back", "statement": "On each of the four systems, a coroutine that asks for the capacity and the Block Limits page and then sends one WRITE SAME(16) for each piece leaves the pattern in every block, for any number of blocks, any piece size and any limit of the device, if the block size is a multiple of 512; with other block sizes (520) WriteSame16Command raises AssertionError, since it compares with 512 whatever block_size is given, and nothing changes. WriteSame16Command with number_of_blocks 0 overwrites all blocks from the given one to the end of the disk. A coroutine that sends one UNMAP for each piece within the limits of the page leaves zeros in exactly the blocks of the given ranges, however many, large and overlapping these are; if the page says that UNMAP is not supported, or ends before these fields, nothing changes. All ranges in one UNMAP are given back completely if they are within the limits, else not at all and AsiCheckConditionError is raised; ranges that do not fit the fields never reach the device.", "quantifier": "all devices with such behaviour, capacities, block sizes, limits, patterns, piece sizes, lists of ranges, on all four systems", "why_tests_cant": "tests run against one device with its limits and one block size, and on disks small enough to be compared.", "anchors": ["src/infi/asi/cdb/write_same.py", "src/infi/asi/cdb/unmap.py", "src/infi/asi/cdb/inquiry/vpd_pages/block_limits.py", "src/infi/asi/cdb/read_capacity.py", "src/infi/asi/coroutines/sync_adapter.py"]}
{"id": "C104", "title": "Coroutines with several executers", "statement": "On each of the four systems, a coroutine may send its commands to any number of executers of the process (one per device or path), catch exceptions and call other coroutines: sync_wait ends with the result that its code has for the answers of the devices, in no other way, and afterwards every executer can be used again, also if the adapter reported for some command that the device could not be reached (AsiSCSIError on Linux and AIX, IOError with EIO on Solaris, AsiOSError on Windows). What one executer does is not changed by the others. Hence a coroutine that copies a disk to another one in pieces leaves all its blocks on the other and changes nothing else; if a block cannot be read, its AsiCheckConditionError is raised and exactly the pieces before it have been copied; if the block sizes differ or the other disk is smaller, nothing is written.", "quantifier": "all such coroutines, numbers of executers, devices, capacities, block sizes, piece sizes and unreadable blocks, on all four systems", "why_tests_cant": "tests use one executer with one device; losing a path in the middle needs hardware that fails on command.", "anchors": ["src/infi/asi/coroutines/sync_adapter.py", "src/infi/asi/executers.py", "src/infi/asi/linux.py", "src/infi/asi/solaris.py", "src/infi/asi/aix.py", "src/infi/asi/win32.py"]}
{"id": "C105", "title": "Trying the next path", "statement": "On each of the four systems, a coroutine with one executer per path to a disk, which sends a command on the next path when there was no answer of the device, gets what READ should return, and writes what WRITE should write, unless every path loses the command or its answer; then the exception of the last path is raised, and the blocks have been written if it was ever an answer that was lost. Only as many paths are tried as necessary. Any sequence of READs and WRITEs has the results and the effect that it has on a disk that is always reached, as long as not all paths fail for one command. With COMPARE AND WRITE the blocks are replaced if and only if they were as expected and the device was reached; None is returned only then, but AsiCheckConditionError with MISCOMPARE is raised also though the blocks were as expected and have been replaced, namely by an attempt whose answer was lost.", "quantifier": "all disks, numbers of paths, faults (a command is lost, or its answer), commands, and sequences of them, on all four systems", "why_tests_cant": "the faults that matter happen between device and adapter, at moments no test can choose.", "anchors": ["src/infi/asi/coroutines/sync_adapter.py", "src/infi/asi/executers.py", "src/infi/asi/cdb/compare_and_write.py", "src/infi/asi/cdb/read.py", "src/infi/asi/cdb/write.py", "src/infi/asi/linux.py", "src/infi/asi/solaris.py", "src/infi/asi/aix.py", "src/infi/asi/win32.py"]}
{"id": "C106", "title": "What the texts for logs show", "statement": "Whatever bytes an sg_io_hdr, a uscsi_cmd or an sc_passthru was read from, repr() of the object does not raise and shows each member under its name, in the order of the structure, with the value that the object has; on AIX the CDB is an exception: the text has the address of an object in its place, and does not depend on the bytes of the CDB. When a function of Windows fails, the text of AsiWin32OSError starts with the name of the function, has the control code of DeviceIoControl or the result of the wait as a readable number, and has the error code, which is also the attribute win32_errno, but as a negative number from 2^31 on. win32_message is the message of Windows without white space at its ends, but the one for the code modulo 65536; the text of the error ends with it.", "quantifier": "all buffers, layouts of both word sizes, error codes, message tables and paths without the character ( in them", "why_tests_cant": "the values that matter in a log are those that nobody expected.", "anchors": ["src/infi/asi/linux.py", "src/infi/asi/solaris.py", "src/infi/asi/aix.py", "src/infi/asi/win32.py"]}
{"id": "C107", "title": "Name tables", "statement": "Whatever was looked up before, SCSI_DESIGNATOR_TYPES[i] is the name that SPC-4 gives to designator type i, or for a reserved one a text from which i can be read, and TypeError for what is no number. But a lookup of a reserved type adds it to the table: afterwards the table has the types 0 to 10 and exactly the numbers looked up, each once, so that get() and in for a reserved type tell only whether somebody has looked it up. SCSI_PERIPHERAL_DEVICE_TYPE has an entry for every value of the five bits of INQUIRY data, with the name of the standard; SCSI_VERSION_NAME has the names of the versions 0 to 7 and raises KeyError for all others.", "quantifier": "all sequences of lookups, all keys, all bytes", "why_tests_cant": "a process that runs for days looks up anything, in any order.", "anchors": ["src/infi/asi/cdb/inquiry/vpd_pages/__init__.py"]}
{"id": "C108", "title": "Finding the optimized paths", "statement": "On each of the four systems, a coroutine with one executer per path to a logical unit, which sends REPORT TARGET PORT GROUPS on the first path that works and then reads the device identification page on every path, ends with exactly those paths that work and lead to a target port whose group is active/optimized; paths on which nothing is answered are left out, and if there are no others their exception is raised. This holds for groups of at most 127 ports. With 128 ports in a group, ports are taken for groups that are active/optimized, so that a path may be chosen although its only group is in standby.", "quantifier": "all numbers of paths, lists of target port groups that fit into 16384 bytes, designators that fit into 248 bytes, sets of working paths, on all four systems", "why_tests_cant": "needs an array with several controllers, and one with 128 ports in a group.", "anchors": ["src/infi/asi/cdb/rtpg.py", "src/infi/asi/cdb/inquiry/vpd_pages/device_identification.py", "src/infi/asi/cdb/inquiry/vpd_pages/designators.py", "src/infi/asi/coroutines/sync_adapter.py", "src/infi/asi/linux.py", "src/infi/asi/solaris.py", "src/infi/asi/aix.py", "src/infi/asi/win32.py"]}
{"id": "C109", "title": "Target port groups that do not fit into the allocation length", "statement": "On each of the four systems REPORT TARGET PORT GROUPS returns all the groups of the device if 4 bytes and the descriptors fit into the allocation length. If the response is cut within a descriptor (or within the first 4 bytes), an exception is raised. If it is cut exactly between two descriptors, the groups before are returned and the others are missing, without an exception; the default of 16384 may be such a length (of 1366 groups with one port each the last one is missing). In everything that is returned, data_length is the length of all the descriptors of the device, so that it tells whether groups are missing. A coroutine that asks for 4 bytes first and then for 4 + data_length gets all the groups, unless there are more by then: if groups have been added in between, it gets only the old ones.", "quantifier": "all devices that answer with any readable list of target port groups (ports and status codes below 128), which may change with every command; all allocation lengths of 1 and more; all four systems", "why_tests_cant": "needs arrays with many target port groups, whose groups change between two commands.", "anchors": ["src/infi/asi/cdb/rtpg.py", "src/infi/asi/cdb/__init__.py", "src/infi/asi/coroutines/sync_adapter.py", "src/infi/asi/linux.py", "src/infi/asi/solaris.py", "src/infi/asi/aix.py", "src/infi/asi/win32.py"]}
{"id": "C110", "title": "A coroutine object given to async_wait more than once", "statement": "If the coroutine objects given to async_wait are all different, the results are those of C17, C64, C75 and C89. A coroutine that ends without waiting for I/O and is given twice makes async_wait raise KeyError, after everything that it does was done. A coroutine that runs one command and is given twice is resumed a second time while its request is outstanding: async_wait returns, two times, what the class of the command makes of a buffer that the device has not written to, or raises the exception of parsing it. So TEST UNIT READY says that the device is ready and READ(10) returns zeros, whatever the device would answer. Given three times it raises KeyError.", "quantifier": "all coroutines that do not block; all commands, devices and executers on Windows with a device opened for asynchronous use whose request is not completed before the coroutine is resumed", "why_tests_cant": "whether the request is completed before the coroutine is resumed is a race with the device.", "anchors": ["src/infi/asi/win32.py", "src/infi/asi/coroutines/sync_adapter.py", "src/infi/asi/__init__.py"]}
{"id": "C111", "title": "Coroutine objects that are waited for again, and the executer after a failed async_wait", "statement": "When sync_wait has returned, waiting for the same coroutine object again does nothing and returns None; for the execution of a command and for coroutines that run commands this is also so when sync_wait has raised. A generator that yields I/O tokens itself does not end when one of them raises out of sync_wait; waiting for it again goes on after that yield. When async_wait has returned it is so for all its arguments. On platforms other than Windows async_wait raises AsiException before anything has run, and the objects can still be used. When async_wait has raised, each of the others is spent in this sense, or has not begun, or goes on as if None were the result of what it waited for: the execution of a command gives what its class makes of None, without sending anything, so TEST UNIT READY says that the device is ready although it never is. After a failed async_wait on Windows the requests that were not completed are in the queue of the executer and take places in it; all of them, and nothing else, leave it when the coroutines are dropped (when nothing refers to the exception any more), and the executer is usable as before.", "quantifier": "all generators, executers, commands, programs of a user that run commands, numbers of steps, orders of completion; for the executer: all devices that answer intelligibly, all sets of commands that fit, all orders in which coroutines are dropped", "why_tests_cant": "retries happen after failures, in any state in which another command has failed.", "anchors": ["src/infi/asi/coroutines/sync_adapter.py", "src/infi/asi/win32.py", "src/infi/asi/__init__.py", "src/infi/asi/cdb/tur.py"]}
{"id": "C112", "title": "Linux: going on after a command that was given up", "statement": "When the sg device answers nothing for longer than a read waits, call() and wait() raise an IOError. A program that goes on after that and uses no more commands than the queue has places still goes as it should, whatever the device does later: every later call returns its own answer, the late answers of commands that were given up go to their own callbacks only, no callback runs twice; the device executes every command that was sent at most once and no other, and all of them when nothing is pending any more, but a write that was given up may be executed after later ones. Commands that were given up keep their places in the queue until their answers have been fetched: while nothing is answered, the first max_queue_size calls end with an IOError each and all others with a NameError; a full executer refuses every further command on every system even when the answers have come meanwhile, because only wait() fetches them, and wait() then makes it as good as new. But when a command is still out that was sent max_queue_size (15) commands ago and its answer comes next, a call takes this answer for its own: a read returns zeros as a success although the device may not have seen it, or raises the error of the other command.", "quantifier": "all devices, all orders in which they execute and answer, silences anywhere; all programs of send, call and wait with commands that fit the request block; all queue sizes from 1 to 2^31", "why_tests_cant": "timeouts of a minute are not waited for in unit tests, and the wrong answer comes fifteen commands after the one that was given up.", "anchors": ["src/infi/asi/__init__.py", "src/infi/asi/unix.py", "src/infi/asi/linux.py"]}
{"id": "C113", "title": "Watching an enclosure that may be changed", "statement": "The status page and the element descriptor page of an enclosure can only be read with its configuration page, which is read by a command of its own. If the configuration is the same when the second command arrives, the program sees exactly the statuses (texts) that the device has then, on every system. If it was changed in between, the library does not notice: it gives the elements of the new page the types and counts of the old configuration, one after the other, so that statuses and names are those of other elements; if the new page has too few elements there is an InstructError, but on systems that hand over whole buffers made up elements of zeros instead. The generation codes tell: a program that reads the three pages again until their generation codes agree gets three pages of one configuration with the first attempt that was not disturbed, and fails only if all attempts were disturbed.", "quantifier": "all enclosures in which no count is above 127 and whose pages fit into 65535 bytes, changed in any way between any two commands; Linux, Windows, Solaris and AIX; any number of attempts", "why_tests_cant": "an enclosure that is changed between two commands does not occur in unit tests, and what is read then looks like a correct page.", "anchors": ["src/infi/asi/cdb/diagnostic/__init__.py", "src/infi/asi/cdb/diagnostic/ses_pages/configuration.py", "src/infi/asi/cdb/diagnostic/ses_pages/enclosure_status.py", "src/infi/asi/cdb/diagnostic/ses_pages/element_descriptor.py"]}
{"id": "C114", "title": "Linux: in which order commands are executed after one was given up", "statement": "When call() on Linux fails with an IOError because the device did not answer in time, the command is still out. A program that now calls wait() until it succeeds, and only then goes on, has every command executed exactly once and in the program's order and gets for each command its own answer, for any number of commands and however small the queue is; if wait() does not succeed often enough and the program stops, all commands before the lost one were executed, the lost one may have been executed, and no other was. A program that goes on without waiting has no such guarantee: its next command can be executed and answered before the one that was given up, so that a successful write is overwritten by an older one; and a command that is tried again can be executed twice, with the answer to the second execution given to the program.", "quantifier": "all lists of commands, all devices (any answers, any order of execution, any silences), all queue sizes and any number of waits", "why_tests_cant": "a device that answers after the library has given up does not occur in unit tests, and the data that is destroyed is not seen by the program.", "anchors": ["src/infi/asi/unix.py", "src/infi/asi/__init__.py", "src/infi/asi/linux.py"]}
{"id": "C115", "title": "Hosts that take turns with RESERVE and RELEASE", "statement": "Any number of hosts, each on any of the four systems, reserve a device (RESERVE(6), or RESERVE(10) with an id that is 0 or negative), trying again a given number of times when AsiSCSIError is raised, run any program of commands, and release the device whatever became of the program. However the commands of the hosts interleave, the outcome is that of running the programs one after the other, each on the device as the one before left it; at most one host is at work at a time; a host that did not get its turn met a device of another host at each of its attempts, ends with AsiSCSIError and changed nothing; nobody else is refused and nobody is stuck. Hosts that read a block and write it back changed with plain WRITE therefore lose no change. The reservation stays when a host stops without RELEASE: RELEASE by another host succeeds without any effect, and every attempt of the others to reserve, read or write ends with AsiSCSIError.", "quantifier": "all devices that can be reserved, all numbers of hosts, all programs, all numbers of attempts, all interleavings of the commands, all four systems", "why_tests_cant": "a test runs one interleaving of two hosts; the claim is about all of them and about arbitrary programs between RESERVE and RELEASE.", "anchors": ["src/infi/asi/cdb/reserve.py", "src/infi/asi/cdb/release.py", "src/infi/asi/coroutines/sync_adapter.py"]}
{"id": "C116", "title": "Taking over a disk with PREEMPT", "statement": "A host holds a persistent reservation (types 1, 3, 5 or 6) and may go on reading and writing as it likes; any number of other registered hosts, each on any of the four systems, send PREEMPT or PREEMPT AND ABORT with the holder's key and go on with a program of reads and writes if that succeeds. However the commands interleave, exactly one of them succeeds (as soon as one of them has ended), the others end with AsiSCSIError and have changed nothing; up to the takeover the former holder runs as if it were alone, afterwards the winner runs as if it were alone on the disk as the takeover found it, and every WRITE of the former holder raises AsiSCSIError without effect (with types 3 and 6 every READ as well). Nobody is stuck. A host that goes on writing although its PREEMPT failed is refused with types 1 and 3, but with types 5 and 6 its data is written.", "quantifier": "all disks with persistent reservations, all numbers of hosts, all programs of reads and writes, all keys, all interleavings of the commands, all four systems", "why_tests_cant": "a test runs one interleaving; the claim is that no interleaving has two winners or lets the former holder write after the takeover.", "anchors": ["src/infi/asi/cdb/persist/output.py", "src/infi/asi/coroutines/sync_adapter.py"]}
{"id": "C117", "title": "Recognising a disk by its device identification page", "statement": "On all four systems reading the device identification page with an allocation length into which it fits returns all designators; two such pages are equal objects exactly if device type and designators are equal, and a designator is found in the list exactly if the device has it. If the page does not fit: cut between two designators, those after it are missing without an exception; cut within a designator that is a number, or within the first four bytes of any designator, unpacking raises and nothing is shown; cut within a designator that is a text, the text is silently shorter. page_length tells whether the page was complete. Asking for the length first (4 bytes, then 4 + page_length) returns all unless the page has grown since. DeviceIdentificationVPDPageCommand asks for 252 bytes only: two disks whose SCSI names differ beyond that are taken for the same, and a disk with 21 NAA designators cannot be read at all.", "quantifier": "all devices, all lists of conforming designators, all allocation lengths, all four systems", "why_tests_cant": "the allocation lengths and lists are unbounded, and tests have pages that fit.", "anchors": ["src/infi/asi/cdb/inquiry/vpd_pages/device_identification.py", "src/infi/asi/cdb/inquiry/vpd_pages/designators.py", "src/infi/asi/cdb/inquiry/vpd_pages/__init__.py"]}
{"id": "C118", "title": "Listing registrations and logical units while they change", "statement": "While other hosts register, unregister, reserve, release and preempt between any two commands, on all four systems: READ KEYS repeated with required_allocation_length() returns all keys of the moment of the last command, never a mixture; if keys were added since the length was read, key_list is None. Asking again until the keys fit returns them after at most as many attempts as there are ever keys, and one more; more than 8190 keys raise. Two responses with the same pr_generation have seen the same registrations, provided that less than 2^32 actions lie between; so READ KEYS and READ RESERVATION repeated until both have the same pr_generation return keys and reservation of one moment, and the key of a holder is among the keys. Without the comparison the key of the reservation may be missing from the keys. Reading the length of the LUN list and then the list returns all LUNs of the moment of the second command, or raises if LUNs were added in between; repeating that on exceptions returns the list of the first attempt in which none were added.", "quantifier": "all sequences of actions of all hosts between the commands, all numbers of keys, LUNs and attempts, all first allocation lengths, all four systems", "why_tests_cant": "the interleavings with other hosts and the numbers of attempts are unbounded, and tests have one host.", "anchors": ["src/infi/asi/cdb/persist/input.py", "src/infi/asi/cdb/report_luns.py", "src/infi/asi/coroutines/sync_adapter.py"]}
{"id": "C119", "title": "A lock kept in a block with COMPARE AND WRITE", "statement": "Hosts keep a lock in one block of a disk: CompareAndWriteCommand takes it (the block must be free, the mark of the host is written), again after AsiCheckConditionError with MISCOMPARE, and gives it back in a finally clause (the block must hold the own mark). However the commands of any number of hosts on the four systems interleave, what they read and write in between runs one after the other, each on the blocks as the one before left them; at most one host is at work, the one whose mark is in the block; a host that gave up met the mark of another host each time it tried; nobody is stuck; sync_wait returns on each host what its coroutine returns; no change made with READ and WRITE is lost. A host that stops while it has the lock keeps all others out, and nobody can give back the lock of another host with their own mark. If instead the lock is given back with WRITE, also by hosts that did not get it, changes of hosts that succeeded are lost.", "quantifier": "all numbers of hosts, retries and interleavings, all programs that read and write other blocks, all marks and block sizes, all four systems", "why_tests_cant": "the interleavings of several hosts are unbounded, and tests have one host.", "anchors": ["src/infi/asi/cdb/compare_and_write.py", "src/infi/asi/coroutines/sync_adapter.py", "tests/compare_and_write_example.py"]}
{"id": "C120", "title": "Which commands a control byte is sent with", "statement": "Whatever a program does with the attribute control of its commands (assigning naca or vendor_specific of it, assigning a new Control), a command is sent with what was set in it, provided that the program assigns whole control objects and changes only attributes of those; LOG SENSE, RECEIVE DIAGNOSTIC RESULTS and PERSISTENT RESERVE IN and OUT are then sent with 0. The classes share two default objects that are made once in the process. If infi.instruct copies them for each command object, the same holds for all programs. If it does not, cmd.control.naca = 1 is also sent with every other command of the same kind (Struct or Buffer classes) whose control was not replaced, including those that are made later, and a RESERVE(6) with NACA makes PERSISTENT RESERVE IN be sent with NACA, though it cannot be set there.", "quantifier": "all sequences of making, setting, replacing and executing, all commands that can be sent, all values that fit, both ways in which the library may treat defaults", "why_tests_cant": "a test has one command; that objects are shared shows only in what other commands send, in any order and number.", "anchors": ["src/infi/asi/cdb/control.py", "src/infi/asi/cdb/read.py", "src/infi/asi/cdb/reserve.py", "src/infi/asi/cdb/log_sense.py"]}
{"id": "C121", "title": "Linux: several executers over one file", "statement": "Several LinuxCommandExecuters may be created for one file object, with different timeouts and queue sizes. When they are used in turn by call(), as long as no call fails without an answer every call gets the answer of its own command and the device executes the commands one after the other. Exactly: a call takes the first answer that the file has. If it is that of another executer's command (which was given up) with the same packet number, the call takes it for its own: zeros for a successful read, or the error of the other command; if its packet number differs, the call fails with AttributeError, or with AsiInternalError if the answer is not clean. So it is not safe to replace an executer after an IOError by a new one over the same file: both count from 0, and the late answer to the first command of the old one becomes the answer to the first command of the new one, which the device has not executed.", "quantifier": "all numbers of executers, their timeouts, queue sizes and packet numbers, all sequences of calls in which an executer is not used after one of its calls failed without an answer, all targets whose sense data can be parsed, all orders of execution and completion, silences of the device anywhere", "why_tests_cant": "needs a device that answers after the read timeout, a second executer on the same file, and all orders of completion.", "anchors": ["src/infi/asi/__init__.py", "src/infi/asi/linux.py", "src/infi/asi/unix.py"]}
{"id": "C122", "title": "Linux: the memory of commands that are out", "statement": "The sg driver reads and writes the command, sense and data buffers of a request until its answer has been fetched, also when the call() that sent it was given up long before. After every program of send(), call() and wait() that goes as it should (see C85, C112), the driver has exactly the requests whose SGIO objects are in pending_packets, and these objects keep all the buffers: nothing is freed too early and nothing is kept longer. So the program sees the same whatever Python does with all other memory between the operations. This ends when a command is still out that was sent max_queue_size commands ago: the next send() replaces its entry in pending_packets, so its buffers are freed while the driver has their addresses. What may come of it: the device writes data that no command has carried.", "quantifier": "all programs, targets and commands, all orders of execution and completion, silences of the device anywhere, queue sizes up to 2^31, all contents that memory which is not kept may get", "why_tests_cant": "freed memory usually still holds the old bytes; needs a device that answers after the read timeout and memory that is reused meanwhile.", "anchors": ["src/infi/asi/__init__.py:CommandExecuterBase.send", "src/infi/asi/linux.py:SGIO.create", "src/infi/asi/linux.py:SGIO.set_data_buffer"]}
{"id": "C123", "title": "Callbacks that raise, and callbacks that send the next command", "statement": "When a callback raises, wait() raises that exception at once, after the request of the callback has left the queue. If wait() is called again each time, the exceptions of all callbacks that raise come out one by one in the order of the answers, and at the end every callback has run exactly once with its own answer and nothing is pending. call() too raises the exception of the callback of another command, if that one is answered first: its own command has been sent and stays pending, but its answer will not reach anybody. A callback may send the next command on the same executer (through the adapter) while wait() runs: on a system that answers in the order of the commands a queue that was filled up to its size is kept filled, wait() returns when there is nothing more to send, and all callbacks have run exactly once in the order of the commands, each with the answer to its own. If the answers come in another order, a queue that is kept full like this loses commands: the new one takes the packet number of one that is still out, and wait() returns without the callback of that one having run.", "quantifier": "all OS layers that deliver the answers, all sets of raising callbacks, all orders of answers for callbacks that raise; all answers, queue sizes and decisions of callbacks what to send next, as long as they end", "why_tests_cant": "callbacks in tests neither raise nor send; the loss needs a full queue and answers out of order.", "anchors": ["src/infi/asi/__init__.py:CommandExecuterBase._process_pending_response", "src/infi/asi/__init__.py:CommandExecuterBase.wait", "src/infi/asi/__init__.py:CommandExecuterBase.call", "src/infi/asi/__init__.py:CommandExecuterAdapter.send"]}
{"id": "C124", "title": "Arguments by position and by keyword", "statement": "The constructors of the READ, WRITE, WRITE SAME, COMPARE AND WRITE, UNMAP, READ CAPACITY, REPORT LUNS, RTPG, LOG SENSE and standard INQUIRY commands may be called with any mixture of arguments by position and by keyword, leaving out any of the optional ones: the command object is the one in which each parameter has the value given at its place, the value given with its name, or else the documented default, and exactly one of these exists. The order of the keywords does not matter, and naming all arguments is the same as giving all of them by position. Too many arguments, an unknown keyword, a parameter given twice and a missing argument raise TypeError, before anything can be sent. The third argument is the block size for the WRITE commands, but for WRITE SAME it is the number of blocks that are overwritten.", "quantifier": "all 18 classes, all numbers and values of positional arguments, all sets of keywords, in any order", "why_tests_cant": "tests call each class in one or two ways; the mixtures of position, keyword and default are combinatorially many.", "anchors": ["src/infi/asi/cdb/read.py:Read10Command.__init__", "src/infi/asi/cdb/write.py:Write10Command.__init__", "src/infi/asi/cdb/write_same.py:WriteSame10Command.__init__", "src/infi/asi/cdb/log_sense.py:LogSenseCommand.__init__", "src/infi/asi/cdb/inquiry/standard.py:StandardInquiryCommand.__init__"]}
