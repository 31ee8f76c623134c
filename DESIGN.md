# Formal model of infi.asi

This directory holds a Rocq (Coq 8.16.1) model of the Python package in /repo
(`src/infi/asi`) and proofs of the properties listed in `properties.jsonl`.

## 1. Approach

* Python functions are modelled one by one as total Gallina functions.  Python
  exceptions are values (`exn` in `Base.v`), results are `result A := Ok a | Err e`.
* Bytes are `Z` in 0..255, Python integers are `Z` (so negative and huge
  arguments are covered), Python strings of bytes are `list Z`.
* Generators are a coinductive type of resumable computations over a shared
  mutable state (`Gen.v`); `coroutines/sync_adapter.py` is modelled as a stack
  machine over them.
* Executers are modelled twice, once as an event machine (histories of sends and
  responses) and once as generators on top of the stack machine; the two are
  proved to agree.
* The OS and the device are oracles: arbitrary answers, universally quantified.
* Specifications are separate files (`Spec*.v`) that do not mention model helpers.
  What a SCSI device understands by a CDB, and where the standards (SPC-4, SBC-3,
  SES-3) put each response field, is written down there independently of the code.
* Properties are restated in `Prop*.v`, which contain only theorems closed by
  `exact`, an `Example` with a concrete instance, and `Print Assumptions`.

When a property a user would expect is false of the code, the property list states
exactly what the code does, the theorem proves that for all inputs, and a companion
theorem named `..._refuted` exhibits a witness against the expected statement.
All such findings are listed in section 4.

## 2. Files (rocq/theories)

Model (every definition cites the lines of /repo it models):

| file | code modelled |
|------|---------------|
| Base.v | bytes, big-endian numbers, exceptions (`errors.py` and builtin ones), results |
| Gen.v | generators; `coroutines/sync_adapter.py`: `Coroutine`, `sync_wait`, `async_wait` |
| Executer.v | `__init__.py`: `CommandExecuterBase` as event machine and as generators, the `sync_call` adapter; callbacks only record what they get |
| CallForms.v | parameter lists of 18 constructors, and Python's binding of arguments by position, by keyword and by default |
| Callbacks.v | the same generators with callbacks that raise or use the executer |
| OsCommon.v | SCSI commands, ctypes memory and integer types, `_check_condition` |
| OsLinux.v | `linux.py` (sg request block, both executers) |
| OsSolaris.v OsAix.v OsWin32.v | `solaris.py`, `aix.py`, `win32.py` |
| UnixIo.v | `unix.py`, opening and closing in `win32.py` |
| FileObjects.v | the attributes fd and handle of the file classes, and the handle table of the process |
| Controls.v | the attribute control of command objects: DEFAULT_CONTROL and DEFAULT_CONTROL_BUFFER as objects that many commands may refer to |
| Contexts.v | platform choice in `__init__.py`, context managers of `executers.py` |
| ErrorText.v | texts of the AsiSCSIErrors: `prettify_status` and the messages of the four OS layers |
| Ctypes.v | ctypes structures in memory: layout, alignment, byte order, to_raw, from_string |
| Win32Wait.v | win32.py:173-209: the dictionary of events, the call of WaitForMultipleObjects and the test of its result |
| Instruct.v | infi.instruct, as far as the code uses it (trusted, see section 5) |
| Command.v | `cdb/__init__.py`, `cdb/operation_code.py`, `cdb/control.py`, the shape of `execute()` |
| CdbBlock.v | `read.py write.py write_same.py compare_and_write.py unmap.py read_capacity.py` |
| CdbPrimary.v | `tur.py report_luns.py rtpg.py log_sense.py reserve.py release.py receive_copy_operating_parameters.py persist/*`, the CDBs of `inquiry/__init__.py` and `diagnostic/__init__.py` |
| Sense.v AscTable.v | `sense/__init__.py`, `sense/asc.py` (AscTable.v is generated by tools/mkasc.py) |
| Pages.v | `inquiry/standard.py`, `inquiry/vpd_pages/*` |
| Ses.v | `diagnostic/ses_pages/*` |

Specifications, which do not use the model's helpers:

| file | contents |
|------|----------|
| SpecGen.v SpecAsync.v | recursive evaluation of nested generators; schedules |
| SpecExec.v SpecCall.v SpecSession.v | histories and their correct routing; answers to one call; sessions of many commands |
| SpecSg.v SpecDrivers.v | status classification; what an honest driver does with a request block |
| SpecConc.v | commands served one after the other |
| SpecIo.v | OS calls made by a file object |
| SpecDevice.v SpecCdb.v | how a conforming SCSI device decodes a CDB and a parameter list; a disk |
| SpecExecute.v | execution of one command over an executer |
| SpecSense.v SpecLayout.v SpecPages.v SpecVpd.v SpecSes.v | where the standards put the fields of the responses |
| SpecText.v | reading a number or a name in a text; names of the status codes |
| SpecAbi.v | tables of the C structures' members for 64-bit and 32-bit programs; reading a member in memory |
| SpecPortable.v | plain answers, programs and their results |
| SpecIoctl.v | devices that differ in statuses only |
| SpecQueue.v | driver with a queue, scripts of execution and completion, programs of send/call/wait and what they should see |
| SpecWait.v | what kernel32!WaitForMultipleObjects promises: 64 handles, null handles, time outs |
| SpecReserve.v | persistent reservations (SPC-4 5.12), a disk shared by several hosts, the hosts, fencing |
| SpecAdaptive.v | user programs that branch on results: as coroutines, and what they should do on a device |
| SpecFleet.v | user programs run together by async_wait, each on a device of its own |
| SpecSettings.v | the place of every assignable attribute in the CDBs of the standard |
| SpecTimeout.v | time limits: units of the four interfaces, drivers that give up, the table of limits by manager and system |
| SpecStandard.v | standard INQUIRY data built by a program: bytes, contents that fit, what is read back |
| SpecDefaults.v | commands without optional arguments: what they ask for |
| SpecDiscover.v | coroutines that read all pages of a device; devices with pages |
| SpecShared.v | programs of several hosts at the same time; COMPARE AND WRITE |
| Greenlet.v | gevent_friendly and greenlets, __init__.py:227-236, linux.py:226, 273, 288, win32.py:370 |
| SpecGreen.v | what greenlets that share an executer see |
| SpecClone.v | coroutines that copy disks, and the disks |
| SpecHuge.v | transfers of any size |
| SpecStatus.v | READ FULL STATUS: the parameter data of a list of registrations, the objects for it, and what is seen of cut data |
| SpecRetry.v | programs that look at sense data, and what the device means by it |
| SpecFiles.v | file objects as a program expects them, and what operating systems promise about new handles |
| SpecErase.v | devices with WRITE SAME and UNMAP, and programs that erase disks and give blocks back |
| SpecPaths.v | coroutines with several executers, disks reached over several paths, programs that copy and that try the next path |
| SpecLogs.v SpecNames.v | reading the values of members out of a text; names of the standard and sequences of lookups |
| SpecAlua.v | arrays with target port groups, and a coroutine that looks for the optimized paths |
| SpecGroups.v | devices with lists of target port groups that change, and a coroutine that asks for their length first |
| SpecTwice.v | what is in a buffer that the device has not written to |
| SpecLeft.v | coroutine objects that do nothing, that only give a value, that go on like another; how programs go on |
| SpecGiveUp.v | commands of a program, calls one after the other, an answer without its data, what calls see while nothing is answered, a target that records what it executes |
| SpecEnclosure.v | enclosures that change between commands, programs that read two or three pages, elements taken to be of the types of another configuration |
| SpecInsist.v | programs that wait() after every command that was given up |
| SpecTurns.v | devices that can be reserved, hosts that take turns |
| SpecTakeover.v | hosts that take over with PREEMPT |
| SpecIdentify.v | reading the device identification page |
| SpecListing.v | listing registrations, reservation and LUNs of a device that other hosts change |
| SpecLock.v | a lock that hosts keep in a block with COMPARE AND WRITE |
| SpecControl.v | which control byte a program means by what it sets |
| SpecOneFile.v | executers that share a file, what their calls should see |
| SpecMemory.v | memory that requests need, that objects keep, and that is reused |
| SpecCallback.v | callbacks that raise, callbacks that send, what is due then |
| SpecCallForms.v | order, defaults and values of constructor arguments |
| SpecRobust.v SpecResults.v SpecAta.v | outcomes for arbitrary data; what is handed over; the ATA page |
| SpecPack.v | what packing and unpacking again should give |

`*Facts.v`, `CdbLemmas.v`, `ResponseLemmas.v`: lemmas.  `Example*.v`: data for examples.
`Prop*.v`: the property theorems with their examples.

## 3. Plan per property

| id | modelled by | how proved |
|----|-------------|------------|
| C01 | Executer.v event machine and generators | invariant over all histories; the generators refine the machine; also for each OS layer |
| C02 | same | refinement to a FIFO queue: window of consecutive indices mod max |
| C03 | same | timely histories: no index is reused; untimely ones: explicit continuation that loses a response |
| C04 | same, max=1 | invariant: index 0, at most one entry |
| C05 | same | invariant: at most one entry |
| C06 C07 C10 C11 | same | case analysis on one step from any state |
| C08 | Executer.v wait generator | induction on the number of waiting requests, any permutation |
| C09 | Executer.v call generator | induction on the list of foreign responses |
| C12 C13 | Gen.v machine vs. recursive evaluation | big-step relation, the machine simulates it for any stack, and nothing else |
| C14 C15 C16 C63 | Gen.v | symbolic execution of the machine for all callers |
| C17 C64 | Gen.v reactor | invariant over schedules, any number of coroutines |
| C18 | Gen.v, Executer.v adapter | equality of runs |
| C65 | Gen.v reactor and Executer.v | invariant of the shared executer state over schedules |
| C66 | Executer.v | case analysis over the receive step |
| C19-C23 C67 C68 | OsLinux.v | case analysis over Z bit operations, symbolic run of call() |
| C24 C25 C69 | OsSolaris.v, OsAix.v with Executer.v | the same, and induction over the commands of a session |
| C26 C27 | OsAix.v | case analysis |
| C28 C29 C70 C71 C72 | OsWin32.v | case analysis, symbolic run of call() |
| C30 C73 | UnixIo.v polling loop over oracle streams | induction on the number of polls |
| C31 | Contexts.v | case analysis over outcomes, trace of open/close events |
| C32-C34 C36-C38 C40 | CdbBlock.v against the decoder of SpecDevice.v | image of disjoint bit fields, big-endian arithmetic |
| C35 | disk of SpecDevice.v, C32, C34, C62 | induction over sessions; composition |
| C39 | CdbBlock.v | arithmetic over all lists |
| C41 | CdbPrimary.v | induction over the LUN list |
| C42 C43 C48 | all Cdb*.v | per class, generic packing lemmas |
| C44-C47 | CdbPrimary.v | layout lemmas, induction over key lists |
| C49 C50 | Instruct.v layouts | generic theorem for any layout, decidable layout check per class |
| C51 C52 | Pages.v | induction over descriptor lists |
| C53 C54 | Pages.v | list slicing lemmas |
| C55 C56 | Ses.v | nested inductions over lists |
| C57 C58 | Sense.v | field extraction lemmas |
| C59 | AscTable.v | exhaustive over the finite domain of 65536 pairs (the whole domain) |
| C60 | CdbPrimary.v | nested induction |
| C61 | Pages.v, Ses.v dispatch | case analysis over the page code |
| C62 | all layers | composition of the machine lemmas; induction over sessions |
| C74 | Pages.v, Ses.v | both conventions, one witness each |
| C75 | Gen.v reactor, Executer.v, OsWin32.v | invariant of the reactor's waiting list, induction over the order of completion |
| C76 | Pages.v, Ses.v, CdbPrimary.v, CdbBlock.v, Sense.v | closure of 'raises only library errors' under all field kinds; every list element consumes at least a byte |
| C77 | CdbBlock.v, CdbPrimary.v | case analysis over the commands |
| C78 | Pages.v | slice lemmas; arithmetic for the exchanged bytes |
| C79 | ErrorText.v | reading back printed numbers, for numbers of any size; labels occur only once |
| C80 | Ctypes.v (layout of structures, to_raw, from_string) | computed against tables of offsets written down from the headers |
| C81 | Ctypes.v, Os*.v create | induction over the fields: a stored field is read back at its offset; then the four structures |
| C82 | the four OS layers, Command.v, Cdb*.v, Sense.v | C62's steps of a command object, C43/C48 for what is issued, C57's parser never fails on conforming sense data |
| C83 | as C82 | induction over the program: on each system the expected result of a plain answer is the same term |
| C84 | OsLinux.v (linux_ioctl_os), Command.v, Cdb*.v | C23's call, C62's induction over programs, C35's simulation; two devices: the same results term by term |
| C85 | Executer.v, OsLinux.v against a driver that executes and completes in any order (SpecQueue.v) | invariant linking pending packets, request blocks and disjoint memory regions with the queue of the ideal program; induction over programs and answers |
| C86 | Win32Wait.v (events, WaitForMultipleObjects, _wait_for_events) against what kernel32 promises (SpecWait.v) | the concrete wait refines the abstract choice of Gen.v within the limit; invariants on the table's keys; induction over the commands for the first round |
| C87 | SpecReserve.v: persistent reservations of SPC-4 5.12 as a transition function, the shared disk, hosts on the four systems; the library as in C82 | one step of the library simulates one step of the reservation machine on each system (C44, C45, C46, C35 and the session lemmas); induction over the program; fencing by an invariant and comparison of two runs. Unit attentions that a device raises for other hosts and tasks to abort are not modelled |
| C88 | SpecAdaptive.v: programs as trees that branch on results, as generators (`coroutine`) and as exchanges with the device (`does`) | induction over the run of the program with the evaluation rules of C12 and the one-command lemmas of C82 on each system; inlining by induction over the program; the fetching programs by computing both exchanges with C48 and C45 |
| C89 | SpecFleet.v: a program of C88 with its own executer over `win_async_os` | the reactor's invariant of C17 with an outcome (value or exception) per coroutine instead of a value, and with the hypothesis on tokens weakened to the tokens met in the run; every evaluation of C12 meets it; the programs by the run lemma of C88 over the asynchronous handle (C28); real waits by C86 |
| C90 | SpecSettings.v: the standard's place of every attribute of the 28 commands; a CDB as a big-endian number in which some bits are replaced | one lemma about field tables: setting one field of a table without overlaps and with distinct names replaces its bits (bit by bit); the 28 tables are compared with the standard's places by computation on closed terms; the control byte from C42's reading of the CDB by the device |
| C91 | the same | packing and the expected length depend only on the latest values of the listed attributes |
| C92 | Contexts.v (default timeouts and queue sizes added), SpecTimeout.v: devices that need time, drivers that give up after the time the request allows (each interface's unit), a reader with limited patience | one call on each executer over an arbitrary driver that completes the created request with an answer; the limit field of created requests; the table of managers by cases |
| C93 | Pages.v (pack_standard_inquiry, pack_extended), SpecStandard.v: the bytes written out from the standard, the content as read back, data without reserved bits | images of separate fields without gaps are determined by what is read from them; list algebra for the extension; reading back through C54's lemma |
| C94 | Defaults.v: constructor calls with the required arguments only; SpecDefaults.v: what each asks for, in numbers; devices and programs of C88 | the theorems on requests of each class at the default values; the programs `Do c finish` through C88's theorem |
| C95 | SpecDiscover.v: the two coroutines as programs of C88, devices with pages cut at the allocation length, what a page reads as whatever zeros follow | page by page from the theorems of C51 to C57, by induction on the list of pages; C88's theorem for the systems |
| C96 | SpecShared.v: steps of programs of C88, all interleavings of the programs of many hosts, the device as one host meets it when others change it in between, disks with COMPARE AND WRITE, the retry loop | every host: each interleaving gives a run of C88 against the disturbed device; changes: invariant over steps (which hosts have succeeded, how far each of the others is, what it has read), counting successes against retries |
| C97 | Greenlet.v: the sleep behind the blocking calls counted in the driver state, turns of a greenlet (steps of Coroutine.loop up to a sleep), any schedule of turns; SpecGreen.v: traffic with the device, answers in the order of first turns, the one-place buffer | invariants over turns, one for each of sg, Windows and SG_IO executer (who has sent, read, been answered; which slot, block and buffer belong to whom); turns in rounds: round by round over the answers handed over |
| C98 | programs of SpecAdaptive that ask for the capacity and read or write pieces (SpecClone.v), on devices that report their capacity as SBC-3 says and may have unreadable blocks | induction over the pieces with the content as invariant; the blocks of the pieces put together are the blocks of the disk; a piece written into what was written before |
| C99 | the same request blocks, without the hypothesis that sizes fit (`cut_short`, `front` in SpecHuge.v: what a driver does that believes the length member) | the same simulation as for C35 with c_uint kept modulo 2^32; the front of the blocks by list arithmetic |
| C100 | full_status_response, full_status_descriptor, transport_id_class; SpecStatus.v says what the device reports and what is to come of the first n bytes of it | induction over the registrations with the number of bytes left; the coroutine by the simulation of C88 |
| C101 | the programs of C88 with the sense object (Sense.v) read in the except clause (`told` in SpecRetry.v); `means` is read off SPC-4 | key, code and qualifier by the field lemmas of C57 on the padded buffer; induction over the answers; the run by the simulation of C88; that no response parser raises AsiCheckConditionError by C76 and C77 |
| C102 | FileObjects.v (the handle table of the process, one attribute per object) against files that are open or shut (SpecFiles.v) | refinement with the invariant that the table is a permutation of the entries of open files, the events and what was there before; the stale descriptor by cases on who owns it now |
| C103 | the programs of SpecErase.v on the models of the commands, the executer and the four systems; devices by what SBC-3 says of WRITE SAME, UNMAP and the Block Limits page | induction over the pieces; the pieces cover exactly the ranges and respect the limits; the page as read from C95, the commands from C36 and C38 |
| C104 | the coroutines of SpecPaths.v on a list of executers that share the state of what they reach; models of the executer and the four systems, including an adapter that reports an error without a status | simulation by induction over the evaluation of the coroutine, a generator of one executer embedded into one of the process; the copy by induction over the pieces |
| C105 | the same, with a device behind paths that lose commands or answers as a list says | induction over the paths and over that list; READ, WRITE and COMPARE AND WRITE from C62, C96 |
| C106 | __repr__ of SGIO, SCSICMD and SCSIPassThroughAIX, AsiWin32OSError and its callers (Logs.v); reading a text back: SpecLogs.v | strings split at separators, numbers read back from their digits; induction over the members and over strings |
| C107 | CustomDefaultDict and the tables of vpd_pages/__init__.py (Names.v) | invariant of the table over all sequences of lookups; tables by computation over their finite domain |
| C108 | as C104, with the coroutine and the arrays of SpecAlua.v | induction over the paths, from C51 and C60; the counterexample by computation |
| C109 | as C88, with the coroutine and the devices of SpecGroups.v | induction over the groups and their ports, where the response is cut (GroupsFacts.v), and C88_programs |
| C110 | async_wait_objects (Gen.v), in which a name stands for a generator object, over the Windows executer | induction over the list of names; the generators of one command step by step (TwiceFacts.v) |
| C111 | Left.v, create_os_async_reactor (Contexts.v): the state in which sync_wait and async_wait leave the generator objects they were given; what closing the generators of a dropped coroutine does | invariant on the stack of a coroutine (its bottom is the object, which only yields calls and then a value); table of coroutines through react; invariant of C75 at the failure, induction over the dropped coroutines (LeftFacts.v) |
| C112 | C85, with a driver that goes on after a read that was given up (event Silence, driver `patient` in SpecQueue.v) | invariant of C85 kept by a read that is given up; every program has an outcome: induction over the program and the outstanding requests; the late answer from the invariant with the slot taken again (GiveUpFacts.v) |
| C113 | C55, C56, C61 and the programs of C88 | the elements of a page taken as of other types: induction over the types; zeros of the buffer as further elements; attempts by induction (EnclosureFacts.v) |
| C114 | C112's model of the Linux executer with a device that may be silent | one command is out at most: the queue is empty, or holds this command executed or not; induction over the commands and the waits; two scripts for the other programs (InsistFacts.v) |
| C115 | C96's model of hosts at one device, with a device that can be reserved | one host is between its RESERVE and its RELEASE at most, and its body has run as far as its commands have moved the device underneath; induction over the interleaving; the changes of a block follow by running the bodies one by one (TurnsFacts.v) |
| C116 | C87's disk with persistent reservations and C96's model of hosts at one device | either the former holder alone has moved the disk, or one winner has the reservation and alone has moved it since; PREEMPT with the key of a host that is no longer registered is a conflict; induction over the interleaving (TakeoverFacts.v) |
| C117 | C51's page and designators, C88's programs | what is read of a designator that is cut, by kind; the list up to the cut; a function that gets the designator back from the object (IdentifyFacts.v) |
| C118 | C87's reservations (pr_step) as what other hosts do between the commands, C88's programs | every action either keeps generation and registrations or counts the generation; holders stay registered (both for all actions); induction on the attempts (ListingFacts.v) |
| C119 | C96's disk with COMPARE AND WRITE and interleavings, C116's programs on a disk of their own (alone) | invariant over the moves: content of the lock block, stage of every host, blocks as left by the bodies that ended (LockFacts.v); the careless variant refuted by a run on any such disk |
| C120 | Controls.v: command objects that refer to control objects, the two default objects, whether the library copies them as an oracle; SpecControl.v: what was set, read off the program | invariant over the program: who refers to which control object, what the two defaults hold; the control byte in the CDB from C90 (ControlFacts.v) |
| C121 | C112's driver (SpecQueue.v) as the file that several executers of Executer.v, OsLinux.v share; SpecOneFile.v: calls in turn as a function on packet numbers and the queue of the file | invariant on memory and the queue only (request blocks of all executers lie in disjoint regions), kept by every call; induction over the program (OneFileFacts.v) |
| C122 | C112's model and driver (SpecQueue.v); SpecMemory.v: the pieces of memory that a block points to and that an object keeps, memory that is not kept changing arbitrarily between operations | from the invariant of C85: pending packets are a permutation of the requests that are out, each keeps the region it was allocated; the invariant survives changes elsewhere; induction over the program (MemoryFacts.v); the slot taken again drops an object whose region is disjoint from all others |
| C123 | Callbacks.v: completion, call and wait with callbacks that have effects; SpecCallback.v: wait() called again and again, systems that accept and answer, what is due when callbacks add commands | induction over the answers; for callbacks that send, the invariant that the requests out have consecutive packet numbers modulo the queue size, induction over what is due (CallbackFacts.v); with callbacks that do nothing, equivalence with Executer.v by a relation between the generators |
| C124 | CallForms.v: the parameter lists of 18 constructors and how Python binds arguments to them; SpecCallForms.v: order and defaults of the parameters, when a call can be understood, which value stands for which parameter, the command meant | binding shown equal to the list of the values that stand for the parameters; uniqueness from distinct names; permutations (CallFormFacts.v) |
Every property in the list is expressible; real-time behaviour and
kernel drivers are outside the model (section 5).

## 4. Findings

Defects of the code, each with the theorem that shows it (names of theorems in Prop*.v).

Executer and coroutines
* Packet ids are reused while still waiting if responses come out of order: responses and
  callbacks are lost (`C03_untimely_histories_lose_responses`); on Linux a command that was never
  executed is reported as successful (`C85_out_of_time_refuted`).
* A full queue raises NameError instead of AsiRequestQueueFullError (`C10_...`).
* A request without callback raises TypeError on completion (`C11_...`).
* An exception that a called generator has handled resurfaces in its caller, or is dropped with
  a stale value (`C14_...`); a generator that yields nothing leaks a generator object (`C15_...`).
* A failing I/O token bypasses the handlers of the generator that waits for it (only its callers see the exception), and in async_wait aborts all commands (`C63_...`, `C64_...`).
* An error while receiving leaks the slot of the request; with one slot the executer is dead
  (`C66_...`, `C68_...`).
* The adapter's is_queue_full always raises AttributeError (`C18_adapter_is_queue_full_raises`).

OS layers
* Linux: RESERVATION CONFLICT and queue full are looked for in the host status
  (`C21_conflict_reported_refuted`); the SG_IO executer reports success for everything
  (`C23_...`); a clean response to an unknown packet raises AttributeError (`C67_...`).
* Solaris and AIX work only with a queue of one (`C25_...`); the Solaris reason is always
  zero (`C24_reason_is_zero`); a failing Solaris ioctl hides the device's status (`C69_...`).
* AIX with ctypes does not notice a failing ioctl (`C27_ctypes_failure_unnoticed`).
* Windows: result of an asynchronous transfer ignored (`C70_...`), immediate completion
  reported as failure (`C71_...`).
* Error texts: the Linux driver error gives two statuses in the wrong places and drops the third
  (`C79_linux_host_status_refuted`); AIX cuts the status to four bits (`C79_aix_status_refuted`).
* async_wait on Windows loses all results when more than 64 commands wait, when an event cannot be
  created or when a wait times out, and the requests stay in the executer's queue
  (`C86_failure_loses_all`, `C86_failure_keeps_requests`, `C86_any_number_refuted`).
* READ RESERVATION without a reservation: the attributes after the header are 0 on Linux, Solaris and AIX
  (the whole zero-filled buffer is parsed) and None on Windows (`C87_same_view_refuted`); a RESERVATION CONFLICT
  status is the plain AsiSCSIError on all systems, AsiReservationConflictError is never raised for it
  unless the host status is 24 as well (`C87_cluster`, C83).
* required_allocation_length of READ FULL STATUS raises NameError, so no program gets a longer full status by it
  (`C88_full_status_refuted`); for READ KEYS it works up to 8190 keys (`C88_all_keys`, `C88_too_many_keys`); one REPORT LUNS
  with the default allocation length raises from 2048 LUNs on instead of showing the first ones (`C88_one_report_luns_refuted`).
* An exception in one of the coroutines given to async_wait throws away the results of all the others, and their devices are left
  with the commands sent so far carried out (`C89_exception`, `C89_exception_example`).
* The time limit of a command depends on manager and system in ways nobody intends: linux_sg's 3000 ms are 3000 s on Solaris and AIX; under linux_dm a command
  that timed out returns zeros as data; a timeout above 60 s is useless with the sg executer (`C92_managers`, `C92_reader_gives_up`,
  `C92_one_number_refuted`).
* Packing standard INQUIRY data accepts more than 20 vendor specific bytes (the rest is read back as version descriptors) and more than 8 descriptors (the rest is lost)
  (`C93_spilled_refuted`, `C93_ninth_descriptor_refuted`).
* With the default block size a READ from a disk with blocks of 4096 bytes returns an eighth of the data without any error (`C94_large_blocks_refuted`), and with the default allocation length READ KEYS shows None for more than 64 keys (`C94_missing_keys_refuted`).
* A logical block provisioning page without descriptor is shown with an empty designator on all systems but Windows, since `input_buffer_length` counts the unused part of the buffer (`C95_provisioning`).
* Device identification pages beyond 252 bytes lose designators silently (`C95_long_identification`).
* The generation codes of SES pages are never compared: after a reconfiguration elements are shown with wrong types (`C95_expected_refuted`).
* (C97) Greenlets that share an sg executer: when the device answers out of order, a greenlet reads
  the answer of another one, hands it over and has to read again; answers that others have read for it
  in the meantime are not looked at before the next read ends, which times out after 60 s.  Its slot
  stays taken only if its answer never came.
* (C97) Greenlets that share an SG_IO executer with room for more than one: `self.buffer` holds the
  latest request only, so a greenlet whose request was replaced before anybody looked raises
  AttributeError (None has no dxfer_direction), and its slot stays taken for ever.
* (C98) ReadCapacity10Command answers FFFFFFFFh for disks of more than 2^32 blocks; nothing in the
  library falls back to ReadCapacity16Command, and taken as the last block it loses the rest silently.
* (C99) dxfer_len and DataTransferLength are 32 bits wide and ctypes truncates silently: a READ or WRITE of
  4 GiB or more loses data without an error on Linux and Windows.
* (C100) a READ FULL STATUS that does not fit into the allocation length (520 bytes by default) loses descriptors or
  the end of a TransportID without an error, or raises InstructError, depending on where it is cut.
* (C101) CHECK CONDITION without sense data, or with a vendor specific response code: sense_obj is None, so that an except
  clause that looks at sense_obj.sense_key raises AttributeError.
* (C102) UnixFile.close keeps fd: using or closing the object again acts on the file that got the same descriptor since.
* (C102) Win32AsyncFile.ioctl makes an event for each request (win32.py:159) and closes none.
* (C103) WriteSame10Command and WriteSame16Command ignore block_size and refuse data that is no multiple of 512 bytes (write_same.py:36 and 69), so
  disks with 520-byte blocks cannot be erased.
* (C103) number_of_blocks=0 is accepted and means: up to the end of the disk.
* (C104) There is no common exception for a device that cannot be reached: AsiSCSIError, IOError or AsiOSError, depending on the system, so code
  that tries another path has to catch all of them (and must not take a parse error of the answer for one).
* (C105) COMPARE AND WRITE must not be tried again on another path without a READ: MISCOMPARE may be due to the own first attempt.
* (C106) repr() on AIX does not show the CDB; AsiWin32OSError shows the message of another error for codes from 65536 on (HRESULTs), and
  such codes as negative numbers from 2^31 on.
* (C107) SCSI_DESIGNATOR_TYPES grows with each lookup of a reserved type; `in` depends on what was looked up before.
  SCSI_VERSION_NAME raises KeyError for reserved versions.
* (C108) TargetPortGroupDescriptor reads the number of ports as a signed byte, so that from 128 ports on the descriptors that follow are made of
  the ports: groups appear that do not exist, in the state active/optimized.
* (C109) RTPGCommand does not compare data_length with its allocation length: a response that is cut between two descriptors is returned as if it
  were complete.
* (C110) Win32AsyncReactor.wait_for runs the coroutine of a command as often as the command is in its arguments, also while the coroutine
  waits for I/O: a command that is given twice returns before its request is completed.
* (C111) A coroutine object whose async_wait was aborted by the failure of another is resumed with None by a second wait, which is taken for
  the answer of the device: TEST UNIT READY says that the device is ready.  The aborted requests stay in the queue until the exception is dropped.
* (C112) Packet indices are used again after max_queue_size commands even if the one that had the index is still out: after a call that was given
  up (60 s without an answer), the 15th command after it is given the late answer: a read returns zeros as a success.  And a full executer
  never fetches answers by itself, so a program of calls stays refused (NameError) for ever.
* (C113) The SES classes do not compare generation codes: a status or element descriptor page read with the configuration page of an earlier
  generation gives the statuses and texts of other elements, or elements that do not exist, without an exception.
* (C114) A command that was given up stays queued at the device and nothing cancels it: going on without wait() can have a later command
  executed before it (an acknowledged write is overwritten by an older one), trying again can have it executed twice.
* (C115) A reservation outlives a program that stops without RELEASE, and the library gives no means to break it: RELEASE by another
  host returns as if it had been effective, and everything else the host tries ends with AsiSCSIError, which does not tell a conflict from any other failure.
* (C116) A host whose PREEMPT comes too late gets the same AsiSCSIError as for any other failure; if it goes on, a reservation for registrants (types 5 and 6) does not stop it.
* (C117) DeviceIdentificationVPDPageCommand asks for 252 bytes: a longer page is cut, which shortens a text designator or drops designators without an exception, or raises if a number is cut.
* (C18) sync_call calls its function twice (sync_adapter.py:71-72): effects of a function that is not a generator function happen twice.
* (C118) key_list is None if keys were added since the length was read, and a LUN list that has grown raises: programs must ask again.
* (C119) A lock in a block that is given back with WRITE in a finally clause around everything is freed by hosts that never had it.
* (C120) All command classes share two mutable default objects for the control byte. Unless infi.instruct copies defaults, setting an attribute of cmd.control changes other commands as well; assigning a new Control is safe.
* (C121) Packet numbers of two executers over one file coincide. After a call that was given up, a new executer over the same file takes the late answer for its own.
* (C124) The third argument by position is the block size for WRITE but the number of blocks to overwrite for WRITE SAME.
* (C123) call() raises what the callback of another command raises, and its own answer is lost; callbacks that keep a full queue filled lose commands when answers come out of order.
* (C122) A send() that uses a packet number again frees the buffers of the command that has it, which the driver still uses: memory corruption, or a WRITE of other data.
* linux_sg on Windows leaks the handle (`C31_left_open`); closing twice differs between
  Windows and Unix (`C73_...`).

Commands
* READ(6) of 256 blocks has a buffer of 131072 bytes for every block size
  (`C33_read6_size_refuted`).
* WRITE SAME checks the buffer against 512 whatever the block size (`C36_...`); COMPARE AND WRITE
  accepts buffers of the wrong size (`C37_wrong_buffer_accepted`).
* UNMAP data length is one too large (`C39_...`).
* The APTPL bit of PERSISTENT RESERVE OUT is always 0 (`C44_aptpl_refuted`).
* READ RESERVATION of 21 bytes fails (`C46_...`); negative third party ids mean none
  (`C47_negative_refuted`); RTPG extended header off by one (`C60_extended_refuted`); groups of 128 ports or more (`C60_many_ports`).
* LOG SENSE, RECEIVE DIAGNOSTIC RESULTS and PERSISTENT RESERVE IN and OUT ignore an assigned control byte
  (`C90_control_always_refuted`); RESERVE(10)'s operation code can be overwritten, RELEASE(10)'s is fixed
  (`C90_setting_reserve10`).
* Assigning logical_block_address on READ(6) and WRITE(6) objects has no effect, nor has group_number on UNMAP or rdprotect on
  READ(12) and READ(16) (`C91_reuse_six`, `C91_ignored_names`).
* Not a property of its own: the scope of PERSISTENT RESERVE OUT is at byte 3 instead of byte 2 (always 0).

Responses
* T10 vendor designators do not survive pack and unpack (`C52_...`).
* Descriptor sense length taken from byte 6 (`C58_...`); ASC ranges stop at FEh (`C59_...`).
* SES: numbers of whole bytes are signed, among them all counts, lengths and the temperature;
  fan speed bytes swapped; three fields of the enclosure element taken from the wrong byte
  (`C49_ses_elements_refuted`, `C50_enclosure_element_refuted`, `C55_...`, `C56_lost_elements`).
* Joined bit ranges written in two orders, so one field is wrong (`C74_joined_ranges`).
* ATA information: the model number lacks its last two characters (`C78_model_number_cut`), the sector
  count has its bytes exchanged (`C78_sector_count`).
* An unknown PERSISTENT RESERVE IN service action is noticed only after the command was executed
  (`C76_persistent_reserve_in`).

## 5. Trusted base

* Coq 8.16.1's kernel, including its virtual machine (`vm_compute`).
* Axioms: none.  `Print Assumptions` under each theorem of Prop*.v prints
  "Closed under the global context" for every one of them.  Where this takes long, it is printed once
  for `all_theorems`, the tuple of the theorems of the file, which depends on whatever any of them depends on.  (Coq's own Setoid library loads
  ssrunder.v, whose seven parameters `Under_rel.*` are thus present; nothing depends on them.)
* The reading of the Python code recorded in the model.  Comments cite the lines.
* The specifications (Spec*.v) as a reading of the English properties and of SPC-4, SBC-3, SES-3.

### Assumptions about libraries outside /repo

infi.instruct (Instruct.v, reconstructed from its uses in /repo and in /repo/tests):
* UBIntN are big-endian; bit fields of a Struct are numbered from the least significant bit;
  BitFlag is one bit; a value that does not fit, or a missing attribute, raises an error of the
  library (EInstruct) when packing.
* In a Buffer `bits[a:b]` counts from the least significant bit; joined references are
  taken lowest first (C74 shows that neither order makes all uses right);
  be_uint_field/uint_field are unsigned, be_int_field signed if it covers whole bytes.
* Slices beyond the end of the data are cut for bytes, string, buffer and list fields; numbers beyond
  the end raise.  A list field with n has exactly n elements (none if n is negative); without n it
  goes on until the data are used up.  str_field strips trailing NULs and blanks.
* `set_before_pack` overrides the attribute, `default` only applies if none was given;
  a false `unpack_if` gives None; a constant field with another value raises when unpacking.
* Command objects are ordinary Python objects: any attribute can be assigned, and packing reads the attributes named in the
  field declarations.  An assigned control is a new Control object (C90).
* The size of an element consumed by a list field is the end of its furthest field.
* Writing an empty list or bytes field at a place beyond the end still extends the buffer to that place (C93; only the exact size of an extension without version descriptors depends on it).
* gevent's scheduler may run any greenlet at each sleep(0) and at no other place; time.sleep and select
  are not replaced (no gevent.monkey); greenlets run in one thread.
* C102 takes for granted that the system has handles left, that CloseHandle and close of an open handle succeed, and that requests to a
  handle that is not open fail (with EBADF on UNIX).
* C103 takes for granted that the device goes by the block descriptor length of UNMAP (the other length is wrong, C39), that blocks which were
  given back read as zeros (LBPRZ), and that limits apply as SBC-3 says.
* C104 and C105 take for granted that an adapter without a connection reports a host status without SCSI status (Linux, AIX), fails the ioctl with
  EIO (Solaris) or fails DeviceIoControl (Windows), and that executers do not run at the same time (sync_wait).
* C106: the messages of FormatMessage, str() of their bytes, the text of a ctypes array object and the suffix L of long numbers are oracles;
  GetLastError is read as a C int, as ctypes does by default.
* Python closes a generator object when nothing refers to it any more: GeneratorExit is raised where it is suspended and what comes of it is
  ignored; those of a dropped coroutine are closed innermost first (the theorem holds for every order of the coroutines).  The object that
  was given to async_wait belongs to the caller.  That the operating system may still write to the buffers of such a request is not modelled. (C111)
* Unspecified corners are oracles in the theorems: a negative slice length for a text and an unexpected
  keyword argument of a plain Buffer (`library` in Ses.v).

ctypes: structures are laid out by the usual rules of C compilers (each field at the next multiple of its
alignment, _pack_ limiting it, size rounded up to the largest alignment); assignment to integer fields wraps; reading memory outside a buffer is a fault (EFault);
memory is never freed (C122 says which memory may be: all that no pending request keeps; attributes of an SGIO object live as long as it does).  `os`, `select`, `time`, `fcntl`, the Windows API and the drivers are
oracles with arbitrary answers.  infi.exceptools' chain() keeps the type of the raised exception.

### Not modelled

* `__repr__`/`__str__` texts other than those of the AsiSCSIErrors (C79), logging, tracebacks.
* Constructor calls of the RESERVE, RELEASE and PERSISTENT RESERVE classes with some but not all of the optional arguments (C94 leaves out all of them; elsewhere all are given; C124 has all mixtures for the other classes), and constructor arguments of other kinds than intended.
* Sharing of mutable default objects outside C120; elsewhere programs are taken to assign whole control objects.
* Generator objects shared between two callers, or used re-entrantly; threads.
* The OS layers pass structures as records; Ctypes.v and C81 connect the records with bytes in memory
  (Solaris in 64-bit programs only).
* Python floats (the clock of UnixFile.read is an integer in any fixed unit).
* `setup.py`, buildout files, tests.
