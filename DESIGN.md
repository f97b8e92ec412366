# Formal model of ao-space/gt in Coq 8.16.1

## Approach

* The model is executable Gallina wherever the code is sequential: bytes are `N`; Go integer types are `N`/`Z` with the
  wrap-around written out (`u8`, `u16`, `u32`, `mod 2^n`) wherever the code's arithmetic can wrap. Go maps are std++
  `gmap`s; where Go iterates over a map the iteration order is an explicit list argument, constrained only to be a
  permutation of the map's content, and theorems quantify over it.
* Everything outside the process (network reads, OS `listen`, regular expressions, clocks, SHA-256, the WebRTC library,
  the yaml decoder) is an argument of the model over which the theorems quantify. Network input is the list of results of
  the successive `Read` calls, so "for every way the network splits the stream" is a universal quantifier.
* Concurrent code is a small-step relation whose steps are Go's atomic operations, lock operations, channel operations and
  locked sections; theorems quantify over all schedules and all numbers of goroutines.
* `GoBase.v` holds conventions. `*Model.v` files hold only definitions, each with file:line of the code it models and the
  simplifications made. `*Spec.v` hold independent specifications where the statement needs one. `*Proofs.v`/`*Lemmas.v`
  hold lemmas. `Props_*.v` hold the property theorems, with concrete cases that meet the
  hypotheses.
* Names. `Cnn_xxx` states the property (or one clause of it) as written in properties.jsonl. `_partial`: proved under a
  restriction that the English property does not have; the comment above it and the note in MANIFEST.json say what is
  missing. `_refuted`: the code violates this clause; the theorem exhibits a concrete run of the model. `_witness` (or an
  Example beside the theorem): a concrete non-trivial case that meets the hypotheses.
* Most "partial" statuses are partial because the *code* violates the rest of the property: then there is a `_refuted`
  theorem next to the strongest positive statement.

## Plan per property

| id | what is modelled | how it is proved |
|----|-------|-------|
| C01 | `gen` on a 4096-byte slice; `handleTunnel`/`parseOptions` as reader programs | round trip by induction on services |
| C02 | `bufio.Reader` with buffer and pending error over a list of read results; reader programs as a free monad | simulation of every operation, lifted to programs |
| C03-C05 | `parseOptions` over an abstract stream, the regular expression is a function | invariant by induction on the stream; wrap at 65535 refuted |
| C06 | same, the length check | refuted; positive for a user table |
| C07, C08 | users table as `gmap`, authentication functions, histories of connects, registrations and disconnects | case analysis; invariant over histories; races refuted |
| C09 | reconnect map and pending timers, histories | invariant, exact counting |
| C10, C11 | interleaving of the atomic add/store/CAS steps on a u32 | invariant over schedules; uniqueness at the wrap refuted |
| C12-C17 | sender (`process`) as frame generator, receiver loops as reader programs | interleaving relation, induction over frames |
| C18, C19 | CAS interleaving model | invariant over schedules |
| C20, C21 | control state of the tunnel loops | invariants |
| C22, C23 | `getTunnel`, `speedLimit` | induction over order / history |
| C24-C27 | registry state machine (`addTunnel`, `removeTunnel`, `processHostPrefixes`, `reconnect`) | invariants over histories; refuted outside clean histories |
| C28 | port pool and listeners with a listen oracle | invariant over histories; two refutations |
| C29 | checksum pre-image with the btree order | injectivity on well-formed configurations; refuted in general |
| C30 | `NewPortRangeFromString`, `parseTCPs` loop with u16 | characterisation by a declarative grammar |
| C31, C32 | `peekHeader`, `parseIDFromHost` | equivalence with a declarative specification |
| C33 | `peekTLSHost` over a slice with explicit bounds failures | safety for all inputs, completeness against an encoder |
| C34 | `httpTask.Write` state machine | equality with whole-request rewrite for every chunking |
| C35, C36 | idle manager; Close/WaitIdle with mutex and condition variable | invariants; lost wake-up refuted |
| C37 | the read/dirty/expunged map, every atomic access a step | linearizability by ghost map and invariant over all schedules |
| C38 | chunked writer and reader | round trip by induction over chunks, independent of splits and buffer sizes |
| C39 | pipe: mutex, channels, any number of readers and writers | schedule invariant: bytes read are a prefix of bytes written, in order |
| C40 | token manager as functions of time | invariant over histories of generations and uses |
| C41, C48 | flag occurrences with positions, config file, `parseServices`; the text compared by a reload | characterisation as an equivalence; injectivity of the text |
| C42 | user table parsing and verification | case analysis, for every map order |
| C43 | counters of `acceptLoop`/`handle`, `Shutdown`'s loads one by one | invariant over interleavings; early exit refuted |
| C44 | BlockValue, each atomic and channel operation a step | invariant; two first Sets refuted |
| C45 | `WriteJson`/`ReadJson` over a list of reads | round trip by induction; divided length refuted |
| C46 | `api.Conn` Write/Close and its peer | round trip by induction |
| C47, C49, C50 | one client, several tunnels as FIFO channels, reloads, visitors | invariant over interleavings; refutations |
| C51 | `gen` beyond 4096 bytes, server's reader | no server admits the prefix; panics characterised |
| C52 | `ReloadServices` with a WaitGroup, loops, answers | invariant (counter = owed answers) |
| C53 | `WaitUntilReady` with read-write mutex, condition variable, timers | invariant over schedules; three refutations |
| C54 | connect loops, Close, Shutdown | invariants and a measure for termination |
| C55, C56 | P2P message reader; table of peer tasks with its lock | refinement to the list of messages; invariant |
| C57 | LRU of replaced configurations and timers | invariant over histories with time |
| C58, C59 | Go's flag package and `ParseFlags`, defaults, file; what `Start` rewrites in the options | characterisation for every declaration list |
| C60, C61 | saving from the web page; routes, tokens, temporary keys | composition with C58; invariant over histories of requests |
| C62 | `util.RandomString` etc. over a seeded generator | shape, totality, bias by counting; guessing refuted |
| C63 | log directory with inodes and rotation | invariant over histories |
| C64, C65 | the Rust manager: worker table, signals, restart tasks, Ready/Done messages | invariants over interleavings |
| C66, C67 | directory walk, kinds of configurations | induction over trees |
| C68 | TCP forward: choice of a peer connection, send loop, offer/answer framing | invariants, induction |
| C69 | server Start/Close: listeners, TLS/SNI/QUIC/STUN/API | case analysis over options; invariant over Close |
| C70 | length-prefixed messages of the Rust processes, several writers, select! with a timer | induction over messages for all splits; invariant over interleavings |
| C71 | tables sent to the peer process and the lookup by label; the thread's choice | equivalence with a relation of what a label names |
| C72 | channel counters, generation number and timer of the peer process | invariant relating the state to the history |
| C73 | `response` of thread and process, what the process writes | induction; composition with C68 |
| C74 | buffer pool and its users | invariant: live users have distinct buffers |
| C75 | idle timer, callbacks on a thread pool waiting for `dial` | invariants over interleavings |
| C76 | worker process: phases, channel of signals, reader of stdin | invariants over interleavings; ending by its own steps |
| C77 | managers watching a folder, their file events and channels | invariant by induction on interleavings |
| C78 | url splitting byte by byte, dialer, map of hosts with any order | induction on the list of remotes |
| C79 | connect loops with the mutex, the idle pool, waiting and waking, time | invariants over all interleavings; progress by induction on the idle entries |
| C80 | the accept loop as a fold over what Accept returns; QUIC Accept as connection then stream | induction over histories |
| C81 | the channels between msquic's callbacks and Read/Write; the shared send descriptor; the deadline arithmetic | invariant over all interleavings; exact runs for the refutations |
| C82 | requests as threads that share the mutex, the cache, id and secret; time | invariants over all interleavings |
| C83 | the two address texts as byte strings; the two filters; the handlers' answers | decimal texts are injective; permutation for each-once |
| C84 | the sender's steps, the queue of libwebrtc, the condition variable, Close | invariants over all interleavings; exact runs for the refutations |
| C85 | tokio's lines with UTF-8, the channel of eight, the requests, the config check, the first bytes of standard output | invariant linking all input to lines sent; unique reading of a text as lines |
| C86 | the pool with its locks and index; the signalling thread as a queue of jobs and the tasks' bounded channels | invariants over all runs; a jam that no event ends |
| C87 | one end of a tunnel as a queue of frames, one pending Write with its deadline, visitors' bounded buffers, time | invariants over all runs; a lower bound on the time others wait; existence of finishing runs by induction on bytes |
| C88 | the header scan and routing of HttpModel on a stream of several requests; the rewriting writer of HostRewriteModel on all its Writes | refutations for all inputs from the routing and rewriting theorems (C31, C32, C34), with concrete requests as witnesses |
| C89 | the bringing-up of the web server as a function of options, disk and the kernel's answers; net.SplitHostPort; the URL | case analysis for all inputs; string lemmas about SplitHostPort |
| C90 | the handlers of a peer task as programs of calls, the native peer connections they make, their observers and result channels, the callbacks and the closing, as a transition system | an invariant of all runs (13 parts) for the positive theorems; for the refuted parts runs from every state of the stated kind |
| C91 | what the web service shows, what the page makes of each option (keys, durations, remotes, users, services), what it sends back and what is read from the file after that | case analysis on the option tables of both programs, number and text lemmas on durations and on splitting, for all values; the lost options and values as theorems about every configuration |
| C92 | time.Duration.String and time.ParseDuration on bytes | the parser is run symbolically on the writer's digits, unit by unit; the fraction by induction on its digits |
| C93 | what the platform is asked (with encoding/json's treatment of invalid UTF-8) and what jsonparser finds in its answer, on top of the handshake, registry and limiter models | case analysis for the verdict; an invariant of the registry over all histories for the grants; the withdrawn grant for every state of the stated kind |
| C94 | one virtual connection with its timers, reads and aborts as a transition system, and net/http's two goroutines with their lock as a second | invariants over all runs; the reachable states of the second enumerated with a proof that they are closed; concrete runs, for all deadlines, for the false parts |
| C95 | connection loops, the accept channel, the HTTP server's accept and the stopping goroutine as one transition system | invariants over all runs; concrete continuations, from every such state, for the crash |
| C96 | the objects a dial makes and a close deletes; the goroutines of one connection; the callback thread's channel of peer streams, as three transition systems | invariants over all runs; an exact count; concrete continuations for the failures |
| C97 | the two handlers on top of the C60 model, as a fold over the history and as three-step processes; what the account page shows and sends | induction over the history; composition with C58/C60 for the next start; concrete interleavings for every state |
| C98 | regular expressions with their languages, matched by derivatives; parseInt; net.SplitHostPort and LookupPort; the server's normalisation of addresses; times as rows of numbers with units (DurModel) | derivatives against languages; shape of the accepted language; case analysis; induction over the row |
| C99 | a timed transition system of both ends' deadlines, pings, and messages on their way in both directions | an invariant over all executions that bounds the client's silence, the pings unanswered and the server's deadline |
| C100 | a transition system of both processes' loops, the two connections with their two directions, and the frames between | an invariant over all executions, and a measure that each of gt's steps lowers |
| C101 | a transition system of the stopping goroutine, the clients' locks and tunnels with or without room, and the Writes' deadlines | a measure of the server's steps and an invariant over all executions |
| C102 | a transition system of the writers, the write lock, the connection's one deadline and the bytes taken, read by the frame loops of C12-C14 | an invariant over all executions; concrete continuations for every pair of frames; the read loops' frame lemmas |
| C103 | a read loop over the bytes read and still to be read, before and after the closing; the list of tunnels with their numbers of tasks | invariants over all executions, a measure for the loop's own steps; runs for every list of messages and every number of visitors |
| C104 | the host of the URL through the client's default port and net.Dial, and through the peer process's parser; the three tries | case analysis of host[:port] for every accepted configuration (on top of C41's exact description); induction over the tries |
| C105 | the places with the times they were taken, their timers, the visitors' coming and leaving, a clock | an invariant for one place, one for the full table; runs constructed by induction for every limit |
| C106- | see the notes in MANIFEST.json and the head of the model files | |

## Trusted base

* The kernel of Coq 8.16.1, including its `vm_compute` conversion (used on closed decidable terms for concrete runs). No
  `native_compute`, no plugins, no kernel check switched off.
* Axioms: none. `Assumptions.v` (generated by tools/assumptions.py) runs `Print Assumptions` on every theorem named in
  MANIFEST.json, and the answer is "Closed under the global context" each time. vcheck reports the axioms that the loaded libraries declare
  somewhere (std++ imports ssreflect's `ssrunder` from Coq's own standard library); no theorem here uses them. The only
  libraries used are Coq's standard library and std++.
* The translation of Go (and, for bin/src, Rust) to Gallina by hand: each definition cites the lines. In particular
  - Go's semantics of slices, integer conversion, maps, channels, mutexes, atomics as described in the model files;
  - sequential consistency of `sync/atomic` and mutex-protected accesses (the Go memory model promises this);
  - TCP: an established connection is a reliable FIFO stream that may break at any point.
* Hypotheses are only in theorem statements (section variables that are discharged), e.g. injectivity of a hash on the two
  texts at hand, or ideal signatures for JWT.

## What is modelled (file by file)

| code (libcs/ unless said) | model |
|---|---|
| bufio/bufio.go, reader.go (Read, Peek, ReadByte, Discard, fill...) | BufioModel |
| client/conn.go gen, init; server/conn.go handleTunnel, parseOptions, processHostPrefixes (parsing side) | HandshakeModel |
| client/conn.go readLoop, processServiceData, processData; server/conn.go readLoop, process; client/task.go process; conn/conn.go signals | FrameModel |
| client/task.go httpTask.Write | HostRewriteModel |
| server/http.go, server/tls.go, server/server.go parseHost | HttpModel |
| server/server.go parseTCPs, port ranges in server/config.go | PortsModel |
| server/config.go users, server/server.go auth*, reconnect limiter, server/api users endpoint (client side) | AuthModel |
| server/client.go process (ids), getTunnel, speedLimit; conn.Close, CloseWithValue | ConcModel |
| server/client.go openTCPPort, server/conn.go processTCPOptions | TcpModel |
| server/client.go init, addTunnel, removeTunnel, close, reconnect; processHostPrefixes; getOrCreate* | RegModel, BlackModel |
| server/conn.go calChecksum | ChecksumModel |
| client/idle.go | IdleModel |
| web/server/tokenManager.go | TokenModel |
| util/blockvalue.go | BlockModel |
| util/stdio.go, client/api/conn.go | StdioModel |
| client/std/pipe.go, chunked.go | PipeModel, ChunkedModel |
| config/position*.go, client/client.go parseServices | ServicesModel |
| server/server.go acceptLoop, Shutdown | ShutdownModel |
| server/conn.go + client/client.go reload as a whole | DispatchModel, ReloadModel |
| server/sync/map.go, create.go | SyncMapModel |
| client/client.go WaitUntilReady, connect, connectLoop, Close, Shutdown | WaitModel, ClientCloseModel |
| client/peer.go, peerproc.go: message reader, table of tasks | PeerModel, PeerPoolModel |
| config/*.go, New, MergeConfig, getDefaultConfig, util/path.go | FlagsModel, ReoptModel |
| server/web, client/web, web/server: save, login, routes, tokens | WebConfModel, WebAuthModel |
| util/rand.go | RandModel |
| logger/ | LogModel |
| /repo/bin/src/manager.rs, main.rs | ManagerModel, LaunchModel |
| client/tcpforward.go | ForwardModel |
| server/server.go Start, listen*, Close | StartModel |
| /repo/bin/src/manager.rs and peer/mod.rs read_json etc.; the loop of peer/conn.rs | OpModel, PeerIdleModel |
| client/peerproc.go init, peer/conn.rs new_data_channel_process_handler | RouteModel |
| client/peer.go and peerproc.go response, processOffer, getOffer; peer/conn.rs new, handle | AnswerModel |
| pool/pool.go | BufModel |
| client/peer.go OnOpen, OnStateChange, OnMessage, OnConnectionChange | ChanModel |
| lib/export/lib.go | WorkerModel |
| bin/src/manager.rs 499-594, 785-814 | CommandModel |
| client/client.go 214-416, 499-528 | DialerModel |
| client/client.go 631-707, client/task.go 246-270, conn/quicConn.go 32-47 | ReconnModel |
| server/server.go 290-338, conn/quicConn.go 61-69, conn/msquic/listener.go | AcceptModel |
| conn/msquic/stream.go, stream.cpp, conneciton.go 116-121 | BbrModel |
| server/api/server.go 84-230 | StatusModel |
| web/server/util/net.go, web/server/util/system.go 27-51, client/web/api/api.go 158-226, server/web/api/api.go 156-211 | WebListModel |
| client/webrtc/datachannel.go 103-165, client/peer.go 566-592 | SendModel |
| bin/src/cs.rs 77-153, peer/mod.rs 61-88, peer/connect.rs 69-213 | ConnectModel |
| client/webrtc/threadpool.cpp 29-103, client/peer.go 107-150, 341-378 | ThreadModel |
| server/conn.go 820-978, conn/conn.go 43-56, bufio/reader.go 47-109, client/conn.go 389-506 | ClogModel |
| client/web/web.go 40-149, 225-322, server/web/web.go, web/server/util/browser.go 38-60, lib/{client,server} | WebStartModel |
| client/webrtc/peerconnection.go 157-213, 377-547, client/peer.go 83-187, 239-338, 380-520, client/conn.go 573-613 | PeerLifeModel |
| web/front/src/components/ClientConfigForm/*, ServerConfigForm/index.vue, utils/map.ts, utils/eleValidate.ts, client/config.go 40-100, 160-176, server/config.go 33-104, 150-165 | FormModel |
| config/duration.go 12-58 | DurModel |
| server/server.go 588-642, 823-850, server/conn.go 427-484 | PlatformModel |
| client/api/conn.go 65-72, 147-166, client/std/pipe.go 67-84, 171-173 | DeadlineModel |
| client/client.go 571-630, client/conn.go 508-531, client/api/listener.go 22-51 | StopModel |
| conn/msquic/msquicConn.go 15-39, conneciton.go 31-71, 124-206, stream.go 33-76, conn/conn.go 43-88 | QobjModel |
| server/web/api/api.go 60-98, 156-187, client/web/api/api.go 79-99, web/front/src/layouts/components/Header/components/InfoForm.vue 47-75 | WebSavesModel |
| web/front/src/utils/eleValidate.ts 15-27, 43-69, server/server.go 384-388, 398-401, 426-429, 436-439, 474-477, client/client.go 532-537 | PageRulesModel |
| client/conn.go 138-148, 183-212, 219-238, client/task.go 250-256, 300-312, client/peer.go 228-235, server/conn.go 834-869, 990-996, 1046-1052, 1084-1090, conn/quicConn.go 20-30 | KeepModel |
| server/conn.go 82-110, 175-190, 820-976, 980-1095, client/conn.go 363-369, 460-506, client/task.go 215-317 | HalfModel |
| server/server.go 647-673, 681-729, server/client.go 269-341, conn/conn.go 40-57, 216-236, server/conn.go 63, 327-348, 849-856 | LeaveModel |
| conn/conn.go 43-57, 216-236, server/conn.go 984-1006, 1042-1083, client/task.go 249-305, client/peer.go 190-227 | TornModel |
| conn/conn.go 66-88, conn/quicConn.go 20-30, server/conn.go 820-957, 979-1008, server/client.go 78-96, 269-317, client/conn.go 183-387 | GoneModel |
| client/client.go 844-866, client/conn.go 331-338, 376-387, 407-421, client/task.go 55-66, bin/src/peer/conn.rs 227-243, bin/src/peer/connect.rs 290-306 | LocalModel |
| client/conn.go 365-373, 533-614, client/peer.go 97-106, 168-186, client/peerproc.go 88-120, 215-230 | PlaceModel |

Each model file's first comment lists what it simplifies and leaves out.

## What is not modelled

* The WebRTC and QUIC native code (dep/, msquic, libwebrtc bindings), STUN/TURN message contents, TLS cryptography: the
  former are abstracted to "accepts or refuses", the latter does not appear.
* The process handling
  of peerproc.go (exec, stderr of the child); bin/src/peer/connect.rs (the gt connect side in Rust) except where it equals conn.rs.
* conn/quicConn.go (network probe and choice of congestion control).
* The web pages, except the data flow of the settings page (FormModel), and the monitoring numbers of the web UI (CPU, memory), pprof.
* Log texts, sentry, metrics pages, console output.
* Operating system failures inside the log rotation and inside the manager's spawn (stated in those model files).
* Performance: no cost model; "bounded work" claims count options or steps.
