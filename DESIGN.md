# Formal model of twink in Rocq (Coq 8.16.1)

Subject: `krsna1729/twink` at the commit checked out in `/repo`
(`twink/base.py`, `twink/sched_basic.py`, `twink/ovs.py`, `twink/ofp4/*`,
`twink/ofp5/*`, `bess_of_agent.py`, `cord_softswitch_pipeline`).
Build: `cd rocq && coq_makefile -f _CoqProject -o Makefile && make -j4`.

## 1. Trusted base

* The Coq 8.16.1 kernel, `vm_compute` included (used for closed witnesses).
* The tie between code and model is reading only.  Every definition of a
  model file cites the file and the lines it mirrors and states what it
  simplifies.
* Three data listings were generated from the text of `/repo`: the enumerations
  (`M_EnumData4.v`, `M_EnumData5.v`), the calls of the pipeline scripts
  (`M_Cord.v`) and the class statements (`M_Class.v`).  A first version of the first two generators evaluated pieces of
  the source: the argument dictionaries of the enumerations, and lines
  79-414 of `cord_softswitch_pipeline` against a stub that only recorded the
  calls.  The task forbids running the code, so both were replaced by readers
  that walk the syntax tree without evaluating anything; their output is
  identical byte for byte to what the first versions wrote.  No other part of
  `/repo` was executed.
* `Print Assumptions` stands below every property theorem.  The aim is
  `Closed under the global context` for each; section 6 lists the result.
* Python semantics assumed: **CPython 2.7** (`bess_of_agent.py` uses print
  statements, `ofp5` mixes `str` and packed bytes, `base.py` uses
  `os.errno`).  Hence `str` = `bytes`, `/` on integers is floor division,
  list-comprehension variables leak, `None < 4` is true.
  Where Python 3 would differ in a modelled function the comment says so.
* Semantics of the library calls used (`struct`, `set`, `dict`, `list`,
  `socket`, `threading`) are modelled from their documentation.

## 2. Layers

| layer | files | content |
|-------|-------|---------|
| foundation | `Py.v`, `Struct.v` | exceptions as values, bytes (`list Z`), Python values, `struct` formats with `pack`/`unpack_from`/`calcsize` |
| models | `M_*.v` | one definition per Python function, citing lines; no proofs |
| specifications | `S_*.v` | small independent specifications (wire layouts, abstract maps, switch behaviour); no reference to model helpers |
| proofs | `P_*.v` | lemmas |
| properties | `Prop_*.v` | only the property theorems, closed by `exact`, with `Print Assumptions` and an `Example` showing that the hypotheses are satisfiable |
| tests | `T_*.v` | the assertions of `test/test_twink.py` and `twink/ofp5/__main__.py`, evaluated in the model: tests of the reading, not properties |

Conventions: integers are `Z` (Python's unbounded ints); lengths, offsets and
fuel are `nat`; bytes are `Z` in a `list Z`, with `bytes_ok` (all in 0..255)
where it matters.  Exceptions are the constructors of `exn`; a `while` loop
that may run forever is recursion on fuel returning the distinguished
`OutOfFuel`, which theorems exclude, or prove for *every* amount of fuel when
the code really hangs.

## 3. Properties: what is modelled and how it is proved

Statements: `properties.jsonl`; theorems and status of each: `MANIFEST.json`.
A theorem named `_partial` has above it a comment saying what is missing; one
named `_refuted` disproves the claim, or the clause named, with a witness or for
a whole class of inputs.

| properties | code | model | specification | theorems |
|---|---|---|---|---|
| C01-C05 framing, conservation, closing, errors | base.py:31-127, 137-204 | `M_Channel` | `S_Framing` | `Prop_Framing` |
| C06-C11 HELLO, negotiation, transaction ids | base.py:207-313 | `M_Hello` | `S_Hello` | `Prop_Hello` |
| C12-C15 start-up, echo, server loop | base.py:93-98, 207-237, 316-346 | `M_Loop` | `S_Loop` | `Prop_Loop` |
| C16-C22, C91 batches, barriers, routing of replies | base.py:349-471 | `M_Controller` | `S_Controller` | `Prop_Controller`, `Prop_Unsolicited` |
| C23-C27 synchronous calls | base.py:829-929 | `M_Sync` | `S_Sync` | `Prop_Sync` |
| C28-C30 port table | base.py:932-1131 | `M_Ports` | `S_Ports` | `Prop_Ports` |
| C31 rate limit | base.py:474-520 | `M_RateLimit` | in `Prop_RateLimit` | `Prop_RateLimit` |
| C32 parallel channel | base.py:523-558 | `M_Parallel` | in `Prop_Parallel` | `Prop_Parallel` |
| C33, C34, C54 stream server | base.py:609-658 | `M_Server` | in `Prop_Server` | `Prop_Server` |
| C35, C36, C82 monitors, jack-in clients, helper sockets | base.py:561-600, 704-825 | `M_Parent`, `M_Helper` | `S_Parent`, `S_Helper` | `Prop_Parent`, `Prop_Helper` |
| C37 Threadlet | sched_basic.py:17-54 | `M_Threadlet` | in `Prop_Threadlet` | `Prop_Threadlet` |
| C38 struct | the library | `Struct` | in `Prop_Struct` | `Prop_Struct` |
| C39-C47, C55 OpenFlow 1.3 messages | ofp4/build.py, ofp4/parse.py | `M_Build4`, `M_Parse4` | `S_Wire4`, `S_Msg4` | `Prop_Action4`, `Prop_Msg4` |
| C48, C49, C56, C57 match fields 1.3 | ofp4/oxm.py | `M_Oxm` | `S_Oxm` | `Prop_Oxm` |
| C50, C58-C61 Open vSwitch helpers | ovs.py | `M_Ovs` | `S_Ovs` | `Prop_Ovs` |
| C51-C53, C62-C65 BESS agent | bess_of_agent.py | `M_Bess` | `S_Bess` | `Prop_Bess` |
| C66-C68 enumerations | ofp4/\_\_init\_\_.py:4-494, ofp5/\_\_init\_\_.py:4-642, enumerations of both oxm.py | `M_Enum`, `M_EnumData4`, `M_EnumData5` | `S_Enum` | `Prop_Enum` |
| C69, C70 match of a frame | ofp4/\_\_init\_\_.py:495-544 | `M_Tuple` | `S_Tuple` | `Prop_Tuple` |
| C71-C81 OpenFlow 1.4 messages | ofp5/build.py, ofp5/parse.py | `M_Build5`, `M_Parse5` | `S_Wire5`, `S_Msg5`, `S_Term5`, `S_Rebuild5` | `Prop_Action5`, `Prop_Msg5` |
| C83, C84 match fields 1.4 | ofp5/oxm.py | `M_Oxm5` | `S_Oxm5` | `Prop_Oxm5` |
| C85 datagram server | base.py:660-701 | `M_Dgram` | `S_Dgram` | `Prop_Dgram` |
| C86, C87 schedulers, serve_forever | base.py:13-28, sched_basic.py:57-71, sched_gevent.py:12-20 | `M_Sched` | `S_Sched` | `Prop_Sched` |
| C88-C90 send, logging, read wrappers | base.py:31-127, 179-204 | `M_Send` | `S_Send` | `Prop_Send` |
| C92-C95 CORD pipeline | cord_softswitch_pipeline, .bess | `M_Cord` | `S_Cord`, `S_CordLink` | `Prop_Cord` |
| C96-C98 threads and the lock | twink/base.py ControllerChannel, sched_basic.Lock, sched_gevent.Lock | `M_Lock` | `S_Lock` | `Prop_Lock` |
| C99-C101 example programs | test/example_switch.py, test/example_controller_switchinghub.py | `M_Example` | `S_Hub` | `Prop_Hub` |
| C102-C106 the classes combined | every class of base.py and ovs.py, twink/\_\_main\_\_.py:15-18 | `M_Class`, `M_Dispatch` | `S_Class` | `Prop_Class` |
| C107 the standalone controller | twink/\_\_main\_\_.py:10-18 over base.py | `M_Main` | `S_Main` | `Prop_Main` |
| C108 headers of built messages | ofp4/build.py, ofp5/build.py: `ofp_` and every message builder | `M_Build4`, `M_Build5` | `S_Head` | `Prop_Head` |
| C109 queues with properties | ofp4/build.py, ofp4/parse.py: `ofp_packet_queue`, `ofp_queue_prop_*` | `M_Build4`, `M_Parse4` | `S_Queue` | `Prop_Queue` |
| C110 table features | ofp4/build.py, ofp4/parse.py: `ofp_table_features`, `ofp_table_feature_prop_*` | `M_Build4`, `M_Parse4` | `S_Table` | `Prop_Table` |
| C111 structures of fixed size | ofp4, ofp5 build.py, parse.py: the fixed-size structures | `M_Build4/5`, `M_Parse4/5` | `S_Fixed` | `Prop_Fixed` |
| C112 experimenter properties of 1.4 | ofp5 build.py, parse.py: *_prop_experimenter | `M_Build5`, `M_Parse5` | `S_Exp5` | `Prop_Exp5` |
| C113 table features of 1.4 | ofp5 build.py 776-881, parse.py 754-848 | `M_Build5`, `M_Parse5` | `S_Table5` | `Prop_Table5` |
| C114 match fields of other organisations | ofp4 oxm.py 53-280 | `M_Oxm` | `S_Stratos` | `Prop_Stratos` |
| C115 exactly what builders accept | ofp4 build.py, ofp5 build.py | `M_Build4`, `M_Build5` | `S_Exact` (with `S_Fixed`, `S_Head`) | `Prop_Exact` |
| C116 multipart messages and other builders | ofp4 build.py, ofp5 build.py | `M_Build4`, `M_Build5` | `S_Multipart` | `Prop_Multipart` |
| C117 calls without a reader, entries left behind | SyncChannel | `M_Sync` | `S_Inside` | `Prop_Inside` |
| C118 names of ports | ofp4 parse.py, build.py, ofp5 build.py | `M_Parse4`, `M_Build4`, `M_Build5` | `S_Name` | `Prop_Name` |
| C119 exactly what the parser accepts | ofp4 parse.py | `M_Parse4` | `S_Accept4` | `Prop_Accept4` |
| C120 exactly what the parser of 1.4 accepts | ofp5 parse.py | `M_Parse5` | `S_Accept5` (with `S_Accept4`) | `Prop_Accept5` |
| C121 parsers nothing calls, parsers that never return | ofp4, ofp5 parse.py | `M_Parse4`, `M_Parse5` | `S_Unused` (with `S_Accept4`, `S_Accept5`) | `Prop_Unused` |
| C122 exactly where the 1.3 parser never comes back | ofp4/parse.py | `M_Parse4` | `S_Endless4` (with `S_Accept4`) | `Prop_Endless4` |
| C123 exactly where the 1.4 parser never comes back | ofp5/parse.py | `M_Parse5` (with `M_Parse4`) | `S_Endless5` (with `S_Accept5`, `S_Endless4`) | `Prop_Endless5` |

How they are proved:

* Framing, loops, sending: the transport is a list of read (write) outcomes
  (data chunk, timeout, errno, KeyboardInterrupt); the functions follow the code
  loop by loop; induction over messages and outcome lists.
* HELLO and negotiation: bit reasoning (`Z.testbit`) and arithmetic; sets as
  membership predicates.
* Channels (`M_Controller`, `M_Sync`, `M_Ports`, `M_Parent`, `M_Bess`): state
  machines, one operation per call or received message; invariants by
  induction over all histories.  The replies of a switch come from a
  separate model of a conforming switch (`S_Controller.v`), which may answer
  any request of the current barrier segment, in any order.
* Threads (`M_RateLimit`, `M_Server`, `M_Threadlet`, the threads part of
  `M_Hello`, `M_Sync`): small-step interleaving; a step is what no other
  thread can observe half done (attribute accesses, single container
  operations, as the interpreter lock makes them).  Theorems are for every
  schedule; refutations give one.
* Codecs: builders and parsers are functions on dynamic Python values with the
  parameters of the code.  The specification gives every structure as
  explicit fields joined big-endian, without the formats of the code.
  Theorems: builder output = layout; parser on the layout, at any offset in any
  buffer = fields; lists by induction; round trips by composition; a
  message announces its length; parsing terminates (fuel = length is enough) or,
  refuted, runs out of every fuel.
* Enumerations: numbers of the specifications in `S_Enum.v`, proved for every
  order in which Python may walk a dictionary.
* CORD pipeline: the calls of the scripts are data, the modules of BESS a
  small interpreter; the specification is an OpenFlow switch with the tables
  of the comments on structured frames.
* Learning hub: `S_Hub.v` reads the rule texts as ovs-ofctl would and runs a switch
  with them; invariants over all runs of frames, handling and expiry.
* Classes: Python's resolution order and super() on the class statements of the
  repository followed by any further ones; facts about the repository's own
  classes by computation, carried over to every extension because resolution
  orders of bases are kept.

## 4. Not modelled

* Real sockets, name resolution, the file system beyond the names and presence
  of helper sockets, processes (`ovs-ofctl`), wall-clock durations, CPU and
  memory, the scheduling of threads and greenlets beyond interleaving.
* Text that is logged or printed.
* base.py:129-134, 601-606 (two exception classes, two one-line wrappers);
  sched_basic.py:1-16, 73-86 and sched_gevent.py:1-11, 22-35 (imports and self-tests);
  the rest of `test/` beyond `T_*.v` and the examples, `setup.py`.
* BESS, zerorpc, Open vSwitch and the peers are not part of the repository: what
  they return or raise is a parameter, or quantified over.
* OpenFlow 1.0-1.2 and 1.4 messages are modelled where base.py itself reads or
  writes them; the codecs of the repository are for 1.3 and 1.4.

## 5. Findings

Each is a theorem named `_refuted`: the code violates the property.  The ones
with the widest effect:

* `base.py`: framing: a header announcing length 0 makes `recv()` report the end of the stream for ever, 1..7 gives messages shorter than a header (C03); a short write is not noticed (C89).
* `base.py`: HELLO: versions from 32 on give a length that is no multiple of 8 (C07); refusing raises IndexError for unknown versions (C08); ends with lists such as {1,3} and {1,4} disagree (C09); transaction ids repeat across threads (C11).
* `base.py`: echo: an ECHO_REQUEST before the peer's HELLO is not answered (C13); with ControllerChannel first, the order of `__main__.py`, an outstanding callback takes echo requests (C14).
* `base.py`: ControllerChannel: replies to plain requests can reach a later callback (C18); a failed send leaves the queue out of step with the wire (C21); one callback takes every later message when there is no handle_async (C91).
* `base.py`: SyncChannel: a time-out between test and lookup kills the reader (C23); a call registered during close() hangs (C26); an error reply raises NameError (C27).
* `base.py`: ports: OpenFlow 1.4 port lists are read with the wrong format (C29); every PORT_STATUS with a waiter raises TypeError (C30).
* `base.py`: RateLimit: the limit does not hold and calls are made twice or not at all (C31).
* `base.py`: servers: a handler exception leaves its channel open and registered (C34); a client whose HELLO fails ends the accepting thread (C54); the datagram server receives nothing (C85); use_gevent() does not select gevent (C86).
* `base.py`: ParentChannel: a failing monitor or jack-in client ends the switch's connection (C35, C36); helper sockets are left behind when the datapath changes (C82).
* `sched_basic.py`: a second or an overlapping `get()` returns None, raises or hangs (C37).
* `ofp4`: SET_MPLS_TTL, PORT_MOD, port statistics, aggregates and others are not parsed (C40-C46); zero-length actions and experimenter bands make the parser loop for ever (C45, C47); tables of constants differ from the specification (C49, C66).
* `ofp5`: the same and more, one theorem each (C71-C81, C83, C84).
* `ovs.py`: AutoPacketOut hides asynchronous messages (C58); options given as False are passed as flags (C59); ofctl fails for 1.4 (C60).
* `bess_of_agent.py`: reserved port numbers are given out (C51); a known cookie raises TypeError and deletions are recorded as flows (C52); BARRIER is not answered (C53); one bad name makes PORT_DESC fail for ever (C65).
* `cord_softswitch_pipeline`: new destination addresses are written over the source, as text (C93, C95); tagged frames are recognised by the drop eligible bit (C93); the script treats port 3 like port 2 and drops its traffic (C93, C94).
* With a lock that its holder cannot take again (gevent's Semaphore) a callback that sends blocks its channel for ever (C97); a callback collected between the test and the call of base.py:462-463 makes the reader raise TypeError and loses the message (C98).
* Combining classes: overrides of `attach` and `_recv` can be passed over (C103); with ParallelChannel before ControllerChannel handle_async() runs in the reading thread (C105); with LoggingChannel before ControllerChannel the added barriers are not logged (C106).
* Examples: `example_switch.py` does not start (twink.serve_forever) and leaves BARRIER_REQUEST unanswered (C99); under the learning hub a station that comes back to a port does not get its frames, and one whose destination flow expired is flooded to for as long as it sends (C101).

## 6. Print Assumptions

`Print Assumptions` of every theorem of every `Prop_*.v` answers `Closed under
the global context`: no axiom is used, neither of the standard library nor
our own.  Checked for all of them in one file that prints each by name.  The
development has no `Axiom`, `Parameter`, `Admitted`, module type, functor or
plugin; `Section` variables are all discharged.  Libraries imported: the
standard library only (`List`, `ZArith`, `Lia`, `Bool`, `String`, `Permutation` and
similar).

## 7. Tests of the theorems

`seeded/LOG.jsonl` lists the wrong programs tried: one definition of a model
is edited in a copy outside this repository, everything is rebuilt, and the
theorems that fail are recorded.  Where the claim became false and every theorem
still held, a theorem was added or tightened, as the line says.
