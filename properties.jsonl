{"id": "C01", "title": "Handshake round trip", "statement": "When a client with ID, secret (each at most 255 bytes) and at least one service whose handshake fits the 4096-byte buffer connects, the server decodes exactly that ID, that secret and one option per service in configuration order (host prefix or TCP port/random flag, TLS flag, service index = position), and leaves every byte that follows the handshake unread.", "quantifier": "every ID, secret, list of services of any length and every byte stream following the handshake", "why_tests_cant": "infinitely many configurations; off-by-one in the option chaining only shows for particular service lists", "anchors": ["libcs/client/conn.go:gen", "libcs/client/conn.go:conn.init", "libcs/server/conn.go:handleTunnel", "libcs/server/conn.go:parseOptions"]}
{"id": "C02", "title": "Parsing does not depend on how the network splits the stream", "statement": "What the server/client decodes from a connection (handshake, option list, frame headers, payload bytes) is a function of the byte stream only: any way the kernel splits the bytes over Read calls gives the same decoded values, the same errors and leaves the same unread remainder.", "quantifier": "every byte stream, every split of it into non-empty reads, every program of Peek/Discard/ReadByte/copy operations", "why_tests_cant": "the number of splits is exponential; tests see whatever loopback produces", "anchors": ["libcs/bufio/bufio.go:Reader.Peek,Discard,ReadByte,fill", "libcs/bufio/reader.go:LimitedReader.WriteTo,writeBuf"]}
{"id": "C03", "title": "Only known options, well-formed prefixes are registered", "statement": "If the server accepts a handshake option list then every host prefix it will register is either the client's own ID or a prefix sent by the client that matches one of the configured regular expressions (if any are configured), with 'ID-' prepended when withID is set; no other name can be obtained.", "quantifier": "every byte stream after the secret, every user configuration, every regular expression oracle", "why_tests_cant": "attacker controlled input; claim is about all streams", "anchors": ["libcs/server/conn.go:parseOptions"]}
{"id": "C04", "title": "Host-prefix and TCP-port quotas hold at handshake", "statement": "An accepted handshake never carries more host prefixes than the user's host number, nor more TCP services than the user's TCP number (when non-zero; TCP number below 65535).", "quantifier": "every byte stream, every quota value", "why_tests_cant": "quota edge values (0, max) and duplicate names are rarely sampled", "anchors": ["libcs/server/conn.go:parseOptions"]}
{"id": "C05", "title": "Handshake work is bounded by maxHandShakeOptions", "statement": "The server reads at most maxHandShakeOptions options from an unauthenticated peer before rejecting it.", "quantifier": "every byte stream and every value of maxHandShakeOptions", "why_tests_cant": "needs adversarial streams of unbounded length", "anchors": ["libcs/server/conn.go:parseOptions"]}
{"id": "C06", "title": "Over-long or empty credentials are rejected by the server", "statement": "The server refuses a tunnel whose ID or secret length is outside [1,200].", "quantifier": "every ID/secret length byte and every authentication mode", "why_tests_cant": "requires raw protocol input that the bundled client never produces", "anchors": ["libcs/server/conn.go:handleTunnel", "libcs/server/server.go:authUserWithConfig", "libcs/server/server.go:authUserOrCreateUser"]}
{"id": "C07", "title": "Configured-user authentication is exact", "statement": "With a user table, a tunnel is admitted iff the ID is present in the table with exactly that non-empty secret (an API self-test ID/secret pair being the only exception); the limits applied are the ones of that user.", "quantifier": "every table, ID and secret", "why_tests_cant": "universally quantified over credentials", "anchors": ["libcs/server/server.go:authUserWithConfig", "libcs/server/config.go:users.auth"]}
{"id": "C08", "title": "First-come secret binding without a user table", "statement": "In allow-any mode the first secret presented for an ID is bound to it: until the ID's last tunnel goes, any other secret is refused, and configured users' secrets are never replaced or forgotten.", "quantifier": "every history of connects and disconnects of any number of clients", "why_tests_cant": "a history property", "anchors": ["libcs/server/server.go:authUserOrCreateUser", "libcs/server/server.go:removeClientAndTempUser"]}
{"id": "C09", "title": "Brute-force limiter is exact and per IP", "statement": "An IP is refused further handshakes iff it has accumulated more than reconnectTimes authentication failures since the last release; failures of one IP never affect another; when a release period is configured every blocked IP has a pending release.", "quantifier": "every history of attempts, failures and timer firings over all IPs", "why_tests_cant": "history property with timers", "anchors": ["libcs/server/conn.go:handle", "libcs/server/conn.go:handleTunnel"]}
{"id": "C10", "title": "Task identifiers never collide with control signals", "statement": "Whatever the number of visitor connections and however they interleave, the task identifier put on the wire is in [1, 2^32-3001], so that the peer can never take a task frame for a control signal.", "quantifier": "every interleaving of any number of concurrent allocations, from any counter value", "why_tests_cant": "2^32 wrap-around is unreachable in tests", "anchors": ["libcs/server/client.go:client.process", "libcs/conn/conn.go:PreservedSignal"]}
{"id": "C11", "title": "Two live visitors never share a task identifier", "statement": "Two visitor connections that are alive at the same time on the same client are given different task identifiers.", "quantifier": "every interleaving of allocations and any number of live tasks", "why_tests_cant": "only fails at the 2^32 wrap", "anchors": ["libcs/server/client.go:client.process"]}
{"id": "C12", "title": "Tunnel multiplexing is transparent: visitor to service", "statement": "For any set of concurrent visitors, each local service connection receives exactly the bytes its visitor sent, in order, with no byte of another visitor, for any interleaving of the frames on the tunnel and any control signals (ping, ready) between them.", "quantifier": "every number of tasks, every payload, every chunking, every interleaving of whole frames, every split of the tunnel stream", "why_tests_cant": "exponential number of interleavings", "anchors": ["libcs/server/conn.go:process", "libcs/client/conn.go:readLoop", "libcs/client/conn.go:processServiceData", "libcs/client/conn.go:processData"]}
{"id": "C13", "title": "Tunnel multiplexing is transparent: service to visitor", "statement": "For any set of concurrent services responses, each visitor receives exactly the bytes its local service sent, in order and unmixed, for any interleaving of frames.", "quantifier": "every number of tasks, payload, chunking and interleaving", "why_tests_cant": "exponential number of interleavings", "anchors": ["libcs/client/task.go:httpTask.process", "libcs/server/conn.go:readLoop"]}
{"id": "C14", "title": "Unknown, finished or failing tasks do not desynchronise the tunnel", "statement": "A data frame for a task that no longer exists, or whose destination fails after any number of bytes, is consumed completely: the next frame is decoded at its true boundary and other tasks are unaffected.", "quantifier": "every frame stream, every point at which a destination fails or disappears, any payload length", "why_tests_cant": "crash-point property", "anchors": ["libcs/server/conn.go:readLoop", "libcs/client/conn.go:readLoop", "libcs/bufio/reader.go:LimitedReader.WriteTo"]}
{"id": "C15", "title": "No peer-controlled frame crashes a tunnel handler", "statement": "No frame sent by an authenticated peer makes the server's tunnel loop panic.", "quantifier": "every frame stream", "why_tests_cant": "needs raw adversarial frames", "anchors": ["libcs/server/conn.go:readLoop"]}
{"id": "C16", "title": "Control signals leave the frame stream in sync (client)", "statement": "After any control signal from the server (ping, close, reconnect, ready, services, info), the client decodes the following frame at its true boundary.", "quantifier": "every sequence of signals and frames", "why_tests_cant": "reconnect is only sent on graceful shutdown with traffic in flight", "anchors": ["libcs/client/conn.go:readLoop", "libcs/conn/conn.go:ReconnectSignal", "libcs/server/client.go:client.reconnect"]}
{"id": "C17", "title": "Frames are routed to the service chosen by the server", "statement": "A new visitor connection with service index i is connected to the i-th configured service of the tunnel's current configuration; an index out of range ends the tunnel without any connection being made.", "quantifier": "every service list, index and payload", "why_tests_cant": "universally quantified over lists", "anchors": ["libcs/client/conn.go:readLoop", "libcs/client/conn.go:processServiceData"]}
{"id": "C18", "title": "A connection is closed exactly once", "statement": "However many goroutines close a connection or task concurrently (locally or because the peer closed it), the underlying connection is closed exactly once, and the recorded reason is the first one.", "quantifier": "every number of closers and every interleaving", "why_tests_cant": "schedule property", "anchors": ["libcs/conn/conn.go:Connection.CloseWithValue", "libcs/client/task.go:httpTask.CloseWithValue"]}
{"id": "C19", "title": "Close frames are not echoed and not lost", "statement": "A task ended locally sends exactly one close frame; a task ended by the peer's close frame sends none.", "quantifier": "every interleaving of local end and remote close", "why_tests_cant": "schedule property", "anchors": ["libcs/server/conn.go:process", "libcs/client/task.go:httpTask.process"]}
{"id": "C20", "title": "Graceful tunnel close keeps in-flight requests", "statement": "After a close signal a tunnel takes no new visitor, stays up while it has tasks, and is torn down at the latest on the second close signal or when it becomes idle.", "quantifier": "every sequence of signals and task completions", "why_tests_cant": "history property", "anchors": ["libcs/server/conn.go:readLoop", "libcs/client/conn.go:readLoop", "libcs/server/conn.go:process"]}
{"id": "C21", "title": "Dead-server detection", "statement": "A client tunnel gives up iff four more pings were sent than answered (or a read/ping fails); an answered ping is never counted as lost.", "quantifier": "every sequence of timeouts and ping answers", "why_tests_cant": "history property over timers", "anchors": ["libcs/client/conn.go:readLoop"]}
{"id": "C22", "title": "Load balancing picks a least loaded tunnel", "statement": "Each visitor is assigned to a tunnel with the minimum number of active tasks, whatever the map iteration order, and exactly that tunnel's count is incremented; none only if there is no tunnel.", "quantifier": "every set of tunnels, loads and iteration orders", "why_tests_cant": "Go map order is random", "anchors": ["libcs/server/client.go:client.getTunnel"]}
{"id": "C23", "title": "Speed limit", "statement": "Between two consecutive sleeps the limiter lets less than one second's worth of bytes pass, and it sleeps a total number of seconds equal to floor(total bytes / speed), for each direction separately.", "quantifier": "every sequence of packet sizes (sum below 2^32 between calls) and speeds", "why_tests_cant": "history property; overflow", "anchors": ["libcs/server/client.go:client.speedLimit"]}
{"id": "C24", "title": "A host prefix has at most one owner and visitors reach it", "statement": "At any time a (prefix, TLS) pair is routed to at most one client; a client whose registration conflicts gets an error and the registry is exactly as before for every prefix it did not own, for any iteration order; visitors of a registered prefix reach the registering client with the registered service index.", "quantifier": "every history of tunnel additions, reloads and removals by any number of clients, every map order", "why_tests_cant": "history and map-order property", "anchors": ["libcs/server/conn.go:processHostPrefixes", "libcs/server/client.go:addTunnel", "libcs/server/client.go:removeTunnel", "libcs/server/server.go:getOrCreateHostPrefix"]}
{"id": "C25", "title": "No prefix outlives its client", "statement": "When a client's last tunnel goes away, no host prefix is routed to that client any more, so that the prefix can be taken again.", "quantifier": "every history of additions, reloads, failures and removals", "why_tests_cant": "history property", "anchors": ["libcs/server/client.go:removeTunnel", "libcs/server/client.go:addTunnel"]}
{"id": "C26", "title": "Connections limit", "statement": "A client never has more live tunnels registered than its 'connections' limit.", "quantifier": "every history and every limit", "why_tests_cant": "history property", "anchors": ["libcs/server/client.go:addTunnel"]}
{"id": "C27", "title": "A reload on a live tunnel is accepted", "statement": "A tunnel that is already registered can always reload its services if the new services are themselves admissible.", "quantifier": "every state reachable with at most 'connections' tunnels", "why_tests_cant": "depends on pool occupancy", "anchors": ["libcs/server/client.go:addTunnel", "libcs/client/client.go:ReloadServices"]}
{"id": "C28", "title": "TCP ports: no double allocation, no loss", "statement": "At any time each configured TCP port is either free in its pool or held by exactly one live listener; closing listeners returns ports to the pool.", "quantifier": "every history of opens, changes, failures and closes with arbitrary OS listen outcomes", "why_tests_cant": "history property with failure injection", "anchors": ["libcs/server/conn.go:processTCPOptions", "libcs/server/client.go:openTCPPort", "libcs/server/client.go:deleteTCPListener", "libcs/server/client.go:closeTCPListeners"]}
{"id": "C29", "title": "Config checksum identifies the configuration", "statement": "Two option lists with the same checksum pre-image are the same configuration, so that skipping registration on equal checksum is sound.", "quantifier": "every pair of option lists", "why_tests_cant": "collision search", "anchors": ["libcs/server/conn.go:calChecksum", "libcs/server/client.go:addTunnel"]}
{"id": "C30", "title": "Port ranges parse to themselves", "statement": "A TCP range string is accepted iff it denotes min-max with min<=max (0 meaning 1..65535), and the pool built from the configuration is exactly the union of the ranges, pools of different users being disjoint, including the boundary 65535.", "quantifier": "every string / every range / every set of users", "why_tests_cant": "uint16 wrap-around at 65535 only at the boundary", "anchors": ["libcs/util/portrange.go:NewPortRangeFromString", "libcs/server/server.go:parseTCPs"]}
{"id": "C31", "title": "Host header extraction is stable and non-consuming", "statement": "The header value used for routing is the text between the first occurrence of the header name at a line start and its line end, is decided identically for every split of the request over reads, does not consume any byte of the request, and exists only if it ends within the first 2048 bytes and is at most 512 bytes.", "quantifier": "every request, every header name, every read split", "why_tests_cant": "exponential splits", "anchors": ["libcs/server/http.go:peekHeader"]}
{"id": "C32", "title": "Host to ID parsing is exact", "statement": "The routing ID extracted from a host is its first dot-separated label, and only hosts with at least two dots with a non-empty second label are accepted.", "quantifier": "every host byte string", "why_tests_cant": "universally quantified over strings", "anchors": ["libcs/server/http.go:parseIDFromHost"]}
{"id": "C33", "title": "TLS SNI extraction is safe and complete", "statement": "For every byte string read from the network the SNI scan stays inside the record, and for every well-formed ClientHello in one record with a host_name extension it returns exactly that name.", "quantifier": "every byte string; every well-formed ClientHello", "why_tests_cant": "parsing adversarial input", "anchors": ["libcs/server/tls.go:peekTLSHost"]}
{"id": "C34", "title": "Host header rewrite is independent of chunking", "statement": "With useLocalAsHTTPHost, the bytes forwarded to the local service are the request with its first line starting by 'Host:' replaced by 'Host: <local>', however the request is split over frames and reads; each call reports exactly the bytes it was given; at most 4 bytes are held back.", "quantifier": "every request, every split", "why_tests_cant": "state machine over exponentially many splits", "anchors": ["libcs/client/task.go:httpTask.Write"]}
{"id": "C35", "title": "Idle pool keeps its minimum", "statement": "Downscaling never leaves fewer idle tunnels than the configured minimum (and at least one) ; a connection is put to wait only if it was idle.", "quantifier": "every interleaving of pool operations of any number of connections", "why_tests_cant": "schedule property", "anchors": ["libcs/client/idle.go:idleManager"]}
{"id": "C36", "title": "Client shutdown wakes every waiting connection", "statement": "After the idle manager is closed every connection waiting to be needed returns.", "quantifier": "every interleaving of Close and WaitIdle", "why_tests_cant": "lost wake-up needs a precise interleaving", "anchors": ["libcs/client/idle.go:idleManager.WaitIdle,Close"]}
{"id": "C37", "title": "The concurrent map behaves like a map", "statement": "Load, Store, LoadOrStore, LoadOrCreate, LoadAndDelete, Delete and Range of the server's map, called by any number of goroutines at once, give results a plain map would give if each call took effect at one instant between its call and its return (Range: each key at most once, each pair present at some moment of the call, no key left out that was there throughout); no call panics or deadlocks. Called one after the other, LoadOrCreate runs the constructor exactly when the key was absent; under concurrency it may run in vain, but at most twice per call.", "quantifier": "every number of goroutines, every interleaving of their memory accesses, every operation sequence over any keys and values", "why_tests_cant": "expunged/dirty promotion happens only in special histories", "anchors": ["libcs/server/sync/map.go", "libcs/server/sync/create.go"]}
{"id": "C38", "title": "Chunked coding round trip", "statement": "Data written through the chunked writer in any pieces and closed is read back identically by the chunked reader; chunk sizes over 64 bits are rejected.", "quantifier": "every list of writes", "why_tests_cant": "infinitely many", "anchors": ["libcs/client/std/chunked.go"]}
{"id": "C39", "title": "In-memory pipe delivers all bytes in order", "statement": "Bytes read from the pipe are exactly the bytes written, in order, for any interleaving of reads and writes of any sizes; a write returns only when all its bytes were consumed or an end was closed.", "quantifier": "every interleaving of one writer and one reader, all sizes", "why_tests_cant": "schedule property", "anchors": ["libcs/client/std/pipe.go:pipe"]}
{"id": "C40", "title": "One-time web keys", "statement": "A temporary key opens the web UI at most maxUse times and never after its expiry.", "quantifier": "every history of generations and uses, every clock", "why_tests_cant": "history property", "anchors": ["libcs/web/server/tokenManager.go"]}
{"id": "C41", "title": "Services configuration parsing", "statement": "Each service option given on the command line (-remoteTCPPort, -remoteTCPRandom, -localTimeout, -useLocalAsHTTPHost, -hostPrefix) is attached to the nearest -local before it (with a single -local, to that one wherever the option stands), the last occurrence winning; the services of the file follow in order; the accepted list satisfies all documented constraints (known schemes, tcp ports, prefix sizes, distinct prefixes, at most one web service without a prefix), and every list that satisfies them is accepted; wrong configurations are refused with an error.", "quantifier": "every option list", "why_tests_cant": "combinatorial", "anchors": ["libcs/client/client.go:parseServices", "libcs/config/position.go", "libcs/config/positionslice.go"]}
{"id": "C42", "title": "User table admissibility", "statement": "If the server starts with a user table, every ID and secret in it has length in [1,200]; differing numbers of IDs and secrets are an error.", "quantifier": "every table and argument list", "why_tests_cant": "universally quantified", "anchors": ["libcs/server/config.go:mergeUsers,verify"]}
{"id": "C43", "title": "Shutdown waits for exactly the in-flight visitors", "statement": "accepted = served + connections being handled at every instant; graceful shutdown's exit condition holds exactly when only tunnels remain.", "quantifier": "every interleaving of accepts, handler ends and tunnel starts/ends", "why_tests_cant": "schedule property", "anchors": ["libcs/server/server.go:acceptLoop", "libcs/server/server.go:Shutdown", "libcs/server/conn.go:handleTunnelLoop"]}
{"id": "C44", "title": "BlockValue delivers a value", "statement": "Get returns only after Set and returns a value passed to Set; Set never panics.", "quantifier": "every interleaving of gets and sets", "why_tests_cant": "schedule property", "anchors": ["libcs/util/blockvalue.go"]}
{"id": "C45", "title": "Stdio message framing round trip", "statement": "A JSON message of at most 8 KiB written with the length-prefixed framing is read back identically, and larger ones are refused, for every split of the stream.", "quantifier": "every message sequence and every read split", "why_tests_cant": "exponential splits", "anchors": ["libcs/util/stdio.go:WriteJson,ReadJson"]}
{"id": "C46", "title": "API connection framing", "statement": "Bytes written to a virtual API connection are put on the tunnel as data frames of at most 4086 payload bytes which concatenate to exactly the bytes written, followed by one close frame.", "quantifier": "every sequence of writes of any size", "why_tests_cant": "sizes around the frame limit", "anchors": ["libcs/client/api/conn.go:Conn.Write,Close"]}
{"id": "C47", "title": "A visitor can arrive as soon as the tunnel is registered", "statement": "As soon as the server may hand a visitor to a tunnel, the client's end of that tunnel can serve the visitor's first frame; in particular no first frame, however early, crashes the client.", "quantifier": "all orders in which the server's registration, its ready signal and the first visitor frames reach the tunnel", "why_tests_cant": "needs a visitor to arrive between the registration of the tunnel and the write of the ready signal", "anchors": ["libcs/server/conn.go handleTunnel", "libcs/server/client.go addTunnel", "libcs/client/conn.go readLoop"]}
{"id": "C48", "title": "A reload that changes something is not refused as unchanged", "statement": "When the client is asked to reload, it answers 'config did not change' only if the new list of services equals the running one in every field the user can set.", "quantifier": "every pair of service lists, every hash", "why_tests_cant": "ranges over all pairs of configurations", "anchors": ["libcs/client/client.go:ReloadServices", "libcs/client/config.go:service.String", "libcs/client/config.go:services.String"]}
{"id": "C49", "title": "Visitors reach the service behind their prefix, also during a reload", "statement": "A visitor that asks for a host prefix is connected to the local service that a configuration in force associates with that prefix, never to another service of the client, whatever tunnels, reloads and visitors do concurrently.", "quantifier": "every interleaving of visitors, tunnels coming and going and reloads; every sequence of configurations", "why_tests_cant": "schedule property: the server's prefix table, the tunnels' service lists and the frames in flight change independently", "anchors": ["libcs/server/conn.go:handleHTTP", "libcs/server/conn.go:handleTunnel", "libcs/server/conn.go:processHostPrefixes", "libcs/client/client.go:ReloadServices", "libcs/client/conn.go:readLoop"]}
{"id": "C50", "title": "A reload leaves the visitors being served alone", "statement": "Visitors being served when the client reloads its services are not closed by the reload, at least when their service is unchanged.", "quantifier": "every state and interleaving", "why_tests_cant": "schedule property", "anchors": ["libcs/server/conn.go:readLoop", "libcs/server/conn.go:handleTunnelLoop"]}
{"id": "C51", "title": "An oversized configuration is refused by the client", "statement": "A configuration whose handshake does not fit the 4096-byte buffer is refused by the client with an error; the client neither panics nor sends a handshake the server cannot decode.", "quantifier": "every ID, secret and list of services", "why_tests_cant": "only large configurations are affected, and which ones depends on the sum of all field sizes", "anchors": ["libcs/client/conn.go:gen", "libcs/client/conn.go:init"]}
{"id": "C52", "title": "A reload comes to an end", "statement": "Reloading the services of a running client returns: without an error only after every tunnel it wrote the new configuration to has answered, with an error otherwise; it neither kills the process nor one of the client's tunnels.", "quantifier": "every number of tunnels, every order of writes, answers, refusals and tunnel failures, every number of reloads", "why_tests_cant": "the outcome depends on how answers race with the write loop and on tunnels failing in between, and a refusal of an earlier reload spoils every later one", "anchors": ["libcs/client/client.go:ReloadServices", "libcs/client/conn.go:readLoop"]}
{"id": "C53", "title": "Waiting until the client is connected", "statement": "WaitUntilReady returns nil only when the client has a tunnel that is ready, and the timeout error otherwise, at the latest when the timeout has passed; it does not sleep on while a tunnel is ready.", "quantifier": "every number of concurrent calls, every timeout, every order of tunnels getting ready and lost, timers and wake-ups", "why_tests_cant": "the result depends on which broadcast wakes the call and on windows between test, registration and timer", "anchors": ["libcs/client/client.go:WaitUntilReady", "libcs/client/client.go:addTunnel", "libcs/client/client.go:removeTunnel"]}
{"id": "C54", "title": "A client that is closed stops serving", "statement": "After Close has returned, all tunnels of the client are closed and no new ones are opened; Shutdown tells every tunnel, and returns once they have all ended.", "quantifier": "every number of connect loops, every schedule of dials, ready signals, tunnel failures and the call of Close or Shutdown", "why_tests_cant": "whether a tunnel escapes depends on the moment of the call relative to a dial in progress", "anchors": ["libcs/client/client.go:Close", "libcs/client/client.go:ShutdownWithoutClosingLogger", "libcs/client/client.go:connect", "libcs/client/client.go:connectLoop", "libcs/client/conn.go:readLoop"]}
{"id": "C55", "title": "Messages of a peer-to-peer visitor", "statement": "The offer and candidates a visitor sends over a peer-to-peer request reach the WebRTC connection whole, in order, each exactly once, however the bytes are split into data frames; a message that is refused or malformed is answered with an error and does not stop later ones.", "quantifier": "every sequence of messages, every split of their bytes into reads, every accept/refuse decision of the WebRTC library", "why_tests_cant": "the length prefix and the body can be cut at any byte, and the buffer state survives from one frame to the next", "anchors": ["libcs/client/peer.go:process", "libcs/client/peer.go:processOffer", "libcs/client/conn.go:processP2P"]}
{"id": "C56", "title": "Peer-to-peer connections stay within the limit", "statement": "A client never has more peer-to-peer connections than webrtcRemoteConnections, a request beyond that is answered 403, a data frame of a live connection reaches that connection, and the table of connections never stays locked.", "quantifier": "every interleaving of requests from any number of tunnels, data frames, closes by timer or by WebRTC, and Client.Close", "why_tests_cant": "ids of several servers may collide, and a close may run between the look-up and the replacement of an entry", "anchors": ["libcs/client/conn.go:newPeerTask", "libcs/client/conn.go:newPeerProcTask", "libcs/client/conn.go:processData", "libcs/client/peer.go:CloseWithLock", "libcs/client/client.go:Close"]}
{"id": "C57", "title": "A replaced configuration is kept out for a minute", "statement": "When a client process with the same ID and a new configuration is accepted, all tunnels with other configurations are dropped, and for the next 60 seconds a connection that presents one of the replaced configurations is refused; after that it is forgotten.", "quantifier": "every set of tunnels and configurations of the ID, every sequence of take-overs, every firing time of the timers (never early)", "why_tests_cant": "the 60 s window depends on how many take-overs overlap and on which entry a timer removes", "anchors": ["libcs/server/client.go:addTunnel", "libcs/server/client.go:init"]}
{"id": "C58", "title": "The options are what the command line and the config file say", "statement": "A gt process runs with the options its command line states, else those of its config file, else the documented defaults; repeated options keep all their values in order, service options keep their position on the command line; a command line or config file that cannot be read as such is refused.", "quantifier": "every command line in every spelling (-x v, -x=v, --x v, --x=v), every config file, every set of option declarations", "why_tests_cant": "ranges over all argument lists and files and their combinations", "anchors": ["libcs/config/config.go:ParseFlags", "libcs/config/config.go:copyFlagsValue", "libcs/config/slice.go", "libcs/config/position.go", "libcs/client/client.go:New", "libcs/client/client.go:MergeConfig", "libcs/server/server.go:New"]}
{"id": "C59", "title": "A reload that leaves the options alone is not refused for changing them", "statement": "If a client is started with a command line and a config file, and is asked to reload while the options on the command line and in the file are the same, it is not refused with 'the options section of config file changed'; a reload while an option that a running client cannot change has been changed is refused.", "quantifier": "every command line, every config file, every value of every option", "why_tests_cant": "ranges over all configurations; the options are rewritten in several places at start", "anchors": ["libcs/client/client.go:ReloadServices", "libcs/client/client.go:Start", "libcs/client/client.go:processRemotes", "libcs/client/client.go:MergeConfig"]}
{"id": "C60", "title": "What is saved on the web page is what the next start uses", "statement": "When the web page reports that a configuration has been saved, the next start of gt with the same command line runs with the saved options; options the page may not change (config path, signing key, credentials, addresses of the page itself) keep their values; saving the credentials changes nothing else; if the machine stops while saving, either the old or the new configuration is on disk.", "quantifier": "every running configuration, every config file, every request, every command line of the next start, every crash point of the save", "why_tests_cant": "ranges over all configurations, requests and crash points", "anchors": ["libcs/server/web/service/service.go", "libcs/server/web/api/api.go", "libcs/client/web/service/service.go", "libcs/util/path.go"]}
{"id": "C61", "title": "Web administration needs the administrator's password", "statement": "No request over the web interface reads or changes the configuration, restarts or stops gt, unless its sender holds a token that was handed out less than half an hour before to somebody who presented the administrator's name and password (or, at the first start, the temporary key within its three minutes); logging in with the right name and password works, and changing the password ends the rights of the old one.", "quantifier": "every sequence of requests of every sender, every clock reading, every configuration", "why_tests_cant": "ranges over all histories of requests and forged tokens", "anchors": ["libcs/server/web/web.go:setRoutes", "libcs/web/server/middleware/jwt.go", "libcs/web/server/util/jwt.go", "libcs/web/server/tokenManager.go", "libcs/server/web/api/api.go"]}
{"id": "C63", "title": "The log keeps what was written last", "statement": "With a log file configured, every line logged is found in the log files, in the order in which it was logged, until its file is removed; only the oldest files are removed, and only as many as exceed the configured number; a file that has reached the configured size gets nothing more; and no file of somebody else is touched.", "quantifier": "every sequence of log lines over any number of days, every interleaving with the goroutines that remove old files, every restart, every size limit and number of files", "why_tests_cant": "ranges over all histories of writes, day changes, rotations and restarts, and over the timing of the removals", "anchors": ["libcs/logger/logger.go:Init", "libcs/logger/file-rotatelogs/rotatelogs.go:getWriter_nolock", "libcs/logger/file-rotatelogs/rotatelogs.go:rotate_nolock"]}
{"id": "C64", "title": "Worker processes are kept running", "statement": "`gt` run with several configurations keeps one worker process per configuration: every configured worker has a process or is about to be started again after having ended by itself, and there is never a second one besides a worker that announced that it is leaving. A worker is told to stop only on a stop/reload signal or after it announced that it is leaving; when the manager has ended no worker runs on without having been told to stop.", "quantifier": "all lists of distinct configurations; all interleavings of workers starting, saying Ready/Done/Reconnect and exiting, restarts, registrations, signals, the 120 s and 3 min timers", "why_tests_cant": "crash, restart, registration and shutdown of different workers interleave arbitrarily; the orphan needs a crash while another worker is being drained", "anchors": ["bin/src/manager.rs:run", "bin/src/manager.rs:handle_stdout", "bin/src/manager.rs:process_signal", "bin/src/manager.rs:process_shutdown", "bin/src/manager.rs:run_manager"]}
{"id": "C65", "title": "A reload leaves no gap", "statement": "On reload the old worker of a configuration is told to stop only when the new worker of that configuration runs and has said Ready; if the new workers cannot be started the old ones stay.", "quantifier": "all old managers that got the signal, all new configuration lists, all interleavings of the two managers and their workers", "why_tests_cant": "depends on the order in which the workers of two managers become ready, crash and are told to stop", "anchors": ["bin/src/manager.rs:process_signal", "bin/src/manager.rs:handle_stdout", "bin/src/manager.rs:run_configs", "libcs/lib/export/lib.go:RunServer", "libcs/lib/export/lib.go:RunClient"]}
{"id": "C66", "title": "Batch start runs exactly the configuration files of a directory", "statement": "`gt -c dir --depth d` starts exactly one worker for every file below dir whose name ends in .yaml or .yml (with something before it), that has at most 10 MiB and lies at most d levels down (default 3; 0, and also 255, mean no limit), or starts nothing at all.", "quantifier": "all directory trees, all depths (u8), all file names, sizes and contents", "why_tests_cant": "unbounded trees; u8 arithmetic on the depth; all file names", "anchors": ["bin/src/manager.rs:collect_files", "bin/src/manager.rs:collect_configs", "bin/src/manager.rs:run_configs", "bin/src/main.rs:main"]}
{"id": "C67", "title": "A configuration is run as what it is", "statement": "A configuration file found is run as client if it has services, else as its type says; a server configuration is run as a server; a file that is not a configuration does not keep the others from running; `gt server|client|connect -c F` runs one server, client or connection with F.", "quantifier": "all directory trees, all file contents (as type and services), all command lines", "why_tests_cant": "ranges over all sets of configuration files", "anchors": ["bin/src/manager.rs:is_client_config", "bin/src/manager.rs:is_server_config", "bin/src/manager.rs:run_configs", "bin/src/manager.rs:collect_configs", "bin/src/main.rs:main"]}
{"id": "C62", "title": "Generated secrets and keys", "statement": "A secret, signing key, user name, password or id that gt makes up has the configured length and consists of letters and digits, none of which is preferred; a generated port is in 1024..65534; they cannot be guessed by someone who knows roughly when the process was started.", "quantifier": "all generators behind math/rand, all start times, all sequences of requests of all lengths", "why_tests_cant": "a statement about all outputs of a random generator and all start times", "anchors": ["libcs/util/rand.go:RandomString", "libcs/util/rand.go:RandomPort", "libcs/client/client.go:Start", "libcs/server/web/web.go", "libcs/predef/const.go"]}
{"id": "C68", "title": "TCP forward over peer connections", "statement": "Each connection to the local TCP forward port is given one of the configured number of peer connections (at least one) without a panic, taking turns when they are opened one after the other; what it sends goes over its data channel in order and complete until the channel refuses; setting up a peer connection hands over the offer, the answer and all candidates whole and in order, and reports an incomplete answer.", "quantifier": "all configured numbers, all interleavings of goroutines choosing a connection, all read sequences, all messages, all cut-off points of the response", "why_tests_cant": "the counter is loaded and stored separately by concurrent goroutines; the response can be cut off anywhere", "anchors": ["libcs/client/tcpforward.go:createPeerConnections", "libcs/client/tcpforward.go:tcpForwardStart", "libcs/client/tcpforward.go:createPeerConnection", "libcs/client/client.go:Start"]}
{"id": "C69", "title": "A server listens on what is configured, and closes it", "statement": "Start succeeds exactly if the users are valid, something is to be served and every listener asked for can be opened; then the server listens on exactly the configured addresses (a port alone means all interfaces) and admits clients as configured (auth API, configured users only, any). TLS versions below 1.2 are offered only if asked for. A TLS address is never ignored, a failed Start leaves nothing open, and after Close nothing is listened on and no tunnel remains.", "quantifier": "all option values, all outcomes of loading certificates and of listening, all interleavings of Close with handshakes", "why_tests_cant": "all combinations of options and of failures; races of Close with clients that are connecting", "anchors": ["libcs/server/server.go:Start", "libcs/server/server.go:Close", "libcs/server/server.go:tlsListen", "libcs/server/server.go:quicListen", "libcs/server/server.go:newTLSConfig"]}
{"id": "C70", "title": "Messages between gt's processes arrive whole", "statement": "What one gt process writes to another (manager and workers, client and peer process) is read back as the same messages, one by one and in order, however the pipe splits the bytes and however many tasks of the writer write at the same time; a message that is too long or whose length is garbage is refused; waiting with a timeout loses nothing.", "quantifier": "all lists of messages up to 8 KiB, all splits into pieces, all interleavings of writing tasks, all moments at which the timer fires", "why_tests_cant": "splits of a pipe, interleavings of header and body of different writers, and timers that fire inside a message occur only under load", "anchors": ["bin/src/manager.rs:read_json", "bin/src/manager.rs:write_json", "bin/src/manager.rs:read_hex_len_json", "bin/src/manager.rs:write_hex_len_json", "bin/src/peer/mod.rs:read_json", "bin/src/peer/mod.rs:write_json", "bin/src/peer/conn.rs:handle"]}
{"id": "C71", "title": "A data channel reaches the service its label names", "statement": "A data channel of a peer-to-peer visitor is connected to the service named in its label: <prefix>/ or @<prefix>/ the service with that host prefix, :<port>/ the TCP service with that port, no name the first service; a label that names nothing reaches nothing. Both ways to serve visitors (process and thread) agree.", "quantifier": "all lists of services, all labels", "why_tests_cant": "all service lists and all labels, including ones with other than ASCII characters", "anchors": ["libcs/client/peerproc.go:init", "bin/src/peer/conn.rs:new_data_channel_process_handler", "libcs/client/peer.go:OnOpen"]}
{"id": "C72", "title": "A peer process ends when idle and only then", "statement": "The process that serves a peer-to-peer visitor gives up as idle only if during the whole of the configured idle timeout (at least 5 s) no data channel was open and no message came; and if no channel is open, none is opened and no message comes, it ends after at most twice the timeout.", "quantifier": "all histories of channels opening and ending, messages, and firings of the timer, early enough or late", "why_tests_cant": "the relative timing of channels and timer is unbounded", "anchors": ["bin/src/peer/conn.rs:handle", "bin/src/peer/conn.rs:setup_data_channel", "bin/src/peer/conn.rs:new_data_channel_process_handler", "libcs/client/peerproc.go:init"]}
{"id": "C73", "title": "A peer-to-peer visitor gets the answer and the candidates", "statement": "A visitor that sends an offer is sent the answer and then every candidate that is found, each whole with its length in front, in order, until the last one or until the task is closed; if the connection breaks it has got the first of them. This holds whether the visitor is served by a thread or by a process.", "quantifier": "all answers, all lists of candidates, all points at which the task is closed or the connection breaks", "why_tests_cant": "message sizes, the moment of closing and of write failures are unbounded", "anchors": ["libcs/client/peer.go:response", "libcs/client/peer.go:processOffer", "libcs/client/peer.go:getOffer", "libcs/client/peerproc.go:response", "libcs/client/peerproc.go:processOffer", "libcs/client/peerproc.go:getOffer", "bin/src/peer/conn.rs:new", "bin/src/peer/conn.rs:handle"]}
{"id": "C74", "title": "One connection never sends another's bytes", "statement": "Buffers are shared by all connections through a pool; whatever buffers the pool hands out and however the connections are interleaved, each sends only bytes it has put there itself.", "quantifier": "all interleavings of taking, filling, sending and giving back, all choices of the pool", "why_tests_cant": "a mix-up needs a particular interleaving and a particular choice of the pool", "anchors": ["libcs/pool/pool.go:BytesPool", "libcs/client/peer.go:Close", "libcs/client/peer.go:CloseWithLock", "libcs/client/peerproc.go:CloseWithLock", "libcs/server/conn.go:process", "libcs/client/task.go:process"]}
{"id": "C75", "title": "Data channels served by a thread", "statement": "With -webrtcThread a peer connection is closed as idle only when no data channel is open, and is closed when none has been open for the idle timeout; each service gets the messages of its channel, all and in order; a service that cannot be reached affects no other visitor.", "quantifier": "all interleavings of channels opening and ending with the timer, all orders of callbacks and results of dialling, all assignments of connections to threads", "why_tests_cant": "races between two channels and the timer; callbacks that block depend on the order of events", "anchors": ["libcs/client/peer.go:OnOpen", "libcs/client/peer.go:OnStateChange", "libcs/client/peer.go:OnMessage", "libcs/client/peer.go:OnConnectionChange", "libcs/util/blockvalue.go:Get", "libcs/client/client.go:New"]}
{"id": "C76", "title": "The life of a worker process", "statement": "A gt server or client process says Ready at most once and only after it has started (a client: after it has reached a server); a request on its standard input to shut down, gracefully or not, is never lost and is honoured whatever the process is doing, in the order the requests came; it says so last, with the message that matches the request, after the shutdown; it is given three minutes (a client thirty seconds) before it is cut off; SIGHUP reloads.", "quantifier": "all interleavings of start, attempts to connect, signals, messages, reloads and time", "why_tests_cant": "the order of signals, messages and the process's own steps is not under a test's control", "anchors": ["libcs/lib/export/lib.go:RunServer", "libcs/lib/export/lib.go:RunClient", "libcs/lib/export/lib.go:handleStdIO"]}
{"id": "C77", "title": "Commands to running processes", "statement": "gt -s reload, restart or stop is acted on by every gt running on the machine; each acts on one command, the first given since it was ready for one, however many file events the command causes; no command is lost.", "quantifier": "all numbers of managers, all interleavings of commands, file events, time and the managers' steps", "why_tests_cant": "a command given in the wrong moment of a reload", "anchors": ["bin/src/manager.rs:run_manager", "bin/src/manager.rs:send_signal", "bin/src/manager.rs:create_signal_files"]}
{"id": "C78", "title": "Which servers a client connects to", "statement": "For the remotes it is given a client makes one dialer for each host name and the configured number of connections to each (1 to 10), numbered without gaps; it uses the encrypted remotes given for a host before the plain one and never falls back to a plain connection when an encrypted remote was given; the certificate given is the one trusted and verification is off only if asked for; missing ports are 443 (tls, quic) and 80 (tcp); a remote with an unknown scheme is refused.", "quantifier": "all lists of remotes, certificates, host names and ports, all orders of the map of hosts", "why_tests_cant": "there are unboundedly many lists of remotes and the order of a Go map is random", "anchors": ["libcs/client/client.go:dialer.init", "libcs/client/client.go:dialer.dial", "libcs/client/client.go:processRemotes", "libcs/client/client.go:Start"]}
{"id": "C79", "title": "A client keeps trying to reach its servers", "statement": "Whenever no connection is up and the client is not closing it goes on to dial again, whatever failed before; it dials one connection at a time, the attempts of one connection at least the reconnect delay apart; every server it was given is connected to; the address the remote API gives last is the one dialled; once it is closed each connection is dialled at most once more and all its loops end.", "quantifier": "all numbers of connections, all outcomes of dials, all interleavings of loops, visitors, losses of connections, time and closing", "why_tests_cant": "it takes an outage at the wrong moment of several loops that share a mutex and a condition variable", "anchors": ["libcs/client/client.go:connect", "libcs/client/client.go:connectLoop", "libcs/client/client.go:initConn", "libcs/client/idle.go:idleManager", "libcs/conn/quicConn.go:QuicDial", "libcs/client/task.go:process"]}
{"id": "C80", "title": "A server goes on accepting connections", "statement": "A listener goes on serving those who connect until the server is closed, whatever happens to an accept or to another peer; after a failed accept it waits between 5 ms and 1 s; once the server is closing at most one more connection is handled and the loop ends.", "quantifier": "all histories of accepted connections, failed accepts, peers that open, close or forget their stream, and closing", "why_tests_cant": "it takes a failure of the operating system or an ill-behaved peer at some point of an endless loop", "anchors": ["libcs/server/server.go:acceptLoop", "libcs/conn/quicConn.go:Accept", "libcs/conn/msquic/listener.go:Accept"]}
{"id": "C81", "title": "QUIC connections with -bbr carry bytes faithfully", "statement": "Read returns what was received, in order, nothing left out or twice, and all of it before EOF; a deadline ends a Read; each Write that succeeds has sent its bytes, whole and once, whatever else is being written; one that fails returns an error.", "quantifier": "all sequences of receive, send and shutdown callbacks interleaved with Read, Write and Close; all deadlines", "why_tests_cant": "the callbacks come from another thread at any moment; each theorem ranges over all interleavings", "anchors": ["libcs/conn/msquic/stream.go:Read", "libcs/conn/msquic/stream.go:Write", "libcs/conn/msquic/stream.cpp", "libcs/conn/msquic/conneciton.go:SetDeadline"]}
{"id": "C82", "title": "The status page tells the truth", "statement": "A good answer of /status is what a probe brought through the tunnel at most 15 s before; a request whose own probe failed gets 503, and failures are not remembered; each request is answered once; no more than one successful probe is made in 15 s however many ask; the probe's credentials are no user's, belong together and are of use only while it runs; the probe's response is a good one; a probe that hangs does not silence the page.", "quantifier": "all numbers of requests, all outcomes of probes, all interleavings of requests, authentications and time", "why_tests_cant": "it takes requests and tunnel handshakes that race over shared fields, and time", "anchors": ["libcs/server/api/server.go:status", "libcs/server/api/server.go:check", "libcs/server/api/server.go:randomIDSecret", "libcs/server/api/server.go:Auth"]}
{"id": "C83", "title": "The web page lists connections truly and its buttons work", "statement": "Each socket of the process is listed once: as a tunnel, with its client's ID, exactly if it is one, else as another connection; each button answers once, with success exactly if its command was started; saving answers once.", "quantifier": "all sets of sockets and tunnels, all addresses and ports, all orders of the map, all buttons and outcomes", "why_tests_cant": "ranges over all addresses and sets of connections", "anchors": ["libcs/web/server/util/net.go", "libcs/web/server/util/system.go:SendSignal", "libcs/client/web/api/api.go", "libcs/server/web/api/api.go", "libcs/server/web/service/service.go:GetConnectionInfo", "libcs/client/web/service/service.go:GetConnectionInfo"]}
{"id": "C84", "title": "What a service answers goes out over its data channel", "statement": "With -webrtcThread the channel takes what the service sends, in order, nothing left out or twice; Send says yes exactly for what was taken; when the queue is full the sender waits, goes on as soon as there is room again, and ends when the channel is closed; a closed channel is not used.", "quantifier": "all messages and queue sizes, all interleavings of the sender with bytes leaving the queue and with closing", "why_tests_cant": "the wake-ups come from another thread at any moment", "anchors": ["libcs/client/webrtc/datachannel.go:SendOnce", "libcs/client/webrtc/datachannel.go:Send", "libcs/client/webrtc/datachannel.go:Close", "libcs/client/webrtc/datachannel.go:onBufferedAmountChange", "libcs/client/peer.go:process"]}
{"id": "C85", "title": "The connect command", "statement": "gt's connect process reads lines from its standard input and sends each one, in order and once, as the body of a GET request to the configured address with the configured prefix as Host; it says for each line whether it was forwarded; it starts only with a usable config file; it offers a peer connection; under the manager it becomes ready, gets the user's lines and ends when told to.", "quantifier": "all inputs cut into any pieces, all interleavings of the task that reads with the one that sends, all outcomes of the requests, all config files", "why_tests_cant": "lines, pieces of input and the two tasks' steps combine in unboundedly many ways", "anchors": ["bin/src/cs.rs:load_config", "bin/src/cs.rs:validate_config", "bin/src/cs.rs:run_connect", "bin/src/peer/mod.rs:process_connect", "bin/src/peer/connect.rs:new", "bin/src/peer/connect.rs:send_http_request", "bin/src/peer/connect.rs:forward_data_with_server", "bin/src/manager.rs:run"]}
{"id": "C86", "title": "Peer-to-peer visitors do not hold each other up", "statement": "With -webrtcThread the peer-to-peer visitors of one client share a few libwebrtc threads. Each visitor gets threads that exist; the candidates found for it are passed on in the order in which they were found; and no visitor, slow or gone, keeps the others from being answered or closed.", "quantifier": "all interleavings of callers of the thread pool, and of the signalling thread with any number of visitors' tasks, candidates found and closes", "why_tests_cant": "schedules of the shared thread with any number of visitors and candidates are unbounded", "anchors": ["libcs/client/webrtc/threadpool.cpp:GetThread", "libcs/client/webrtc/threadpool.cpp:GetSocketThread", "libcs/client/client.go:New", "libcs/client/peer.go:OnICECandidate", "libcs/client/peer.go:OnICEGatheringChange", "libcs/client/peer.go:init", "libcs/client/peer.go:response", "libcs/client/conn.go:newPeerTask", "libcs/client/webrtc/peerconnection.cpp"]}
{"id": "C87", "title": "A slow visitor does not disturb the others", "statement": "One visitor of a tunnel that reads slowly, or not at all, neither loses bytes in the middle nor keeps the other visitors of the tunnel, and the tunnel's pings, waiting; likewise a local service that does not read.", "quantifier": "any number of visitors, all frames in any order and cut into any Writes, all paces of reading, all timeouts (none included), any size of the connections' buffers", "why_tests_cant": "interleavings of frames, partial writes and deadlines are unbounded", "anchors": ["libcs/server/conn.go:readLoop", "libcs/server/conn.go:newConn", "libcs/conn/conn.go:Connection.Write", "libcs/bufio/reader.go:LimitedReader.WriteTo", "libcs/client/conn.go:processServiceData", "libcs/client/conn.go:processData", "libcs/client/task.go:httpTask"]}
{"id": "C88", "title": "Every HTTP request is treated by its own Host field", "statement": "Each request on a visitor's HTTP connection, however its Host field is written (names in any case, white space after the colon optional) and also if it is not the first one of the connection, goes to the service its own Host field names; with useLocalAsHTTPHost it reaches the service with the local host in that field, and nothing else is changed.", "quantifier": "all requests, any number of them on a connection, all spellings of the Host field, all ways the bytes are cut into reads and frames", "why_tests_cant": "requests, spellings and segmentations are unbounded", "anchors": ["libcs/server/conn.go:handleHTTP", "libcs/server/http.go:peekHeader", "libcs/server/http.go:peekHost", "libcs/client/task.go:httpTask.Write"]}
{"id": "C89", "title": "The web interface is where and how it is configured", "statement": "If gt starts with -webAddr, its web interface is served at that address, with TLS exactly if certificates are configured, and the URL it shows and opens in the browser (at the first start with the key that logs in) is a URL of that page; otherwise gt ends with an error.", "quantifier": "all addresses, certificate options, contents of the disk, with and without command-line options, and all answers of the kernel to listening, any number of attempts", "why_tests_cant": "addresses and the kernel's answers range over unbounded sets, and a test binds one free port", "anchors": ["libcs/client/web/web.go:NewWebServer", "libcs/client/web/web.go:checkConfig", "libcs/client/web/web.go:getServer", "libcs/client/web/web.go:Server.start", "libcs/server/web/web.go:Server.start", "libcs/web/server/util/browser.go:SwitchToValidWebURL", "libcs/lib/client/client.go:StartWebServer", "libcs/lib/server/server.go:StartWebServer"]}
{"id": "C90", "title": "A peer-to-peer visitor's peer connection", "statement": "With -webrtcThread, each request of a peer-to-peer visitor that is answered by libwebrtc gets its own answer; the peer connection made for a visitor is freed exactly once, when its task is closed, and not used afterwards; no request of a visitor ends the client or acts on another visitor's connection; and no handler of a request waits for ever.", "quantifier": "all sequences of requests (get-offer, offer, answer) on the visitor's own connection and on any number of other ones, all interleavings of the handlers with the callbacks of libwebrtc and with the closing of the task, all results of the calls", "why_tests_cant": "the callbacks come from libwebrtc's own threads at any point of any handler; a test sees one order, and none of libwebrtc's failures", "anchors": ["libcs/client/webrtc/peerconnection.go:NewPeerConnection", "libcs/client/webrtc/peerconnection.go:PeerConnection.CreateOffer", "libcs/client/webrtc/peerconnection.go:PeerConnection.CreateAnswer", "libcs/client/webrtc/peerconnection.go:PeerConnection.SetRemoteDescription", "libcs/client/webrtc/peerconnection.go:PeerConnection.SetLocalDescription", "libcs/client/webrtc/peerconnection.go:PeerConnection.Close", "libcs/client/peer.go:peerTask.process", "libcs/client/peer.go:peerTask.processOffer", "libcs/client/peer.go:peerTask.getOffer", "libcs/client/peer.go:peerTask.processAnswer", "libcs/client/peer.go:peerTask.OnNegotiationNeeded", "libcs/client/peer.go:peerTask.CloseWithLock", "libcs/client/conn.go:conn.newPeerTask"]}
{"id": "C91", "title": "Saving the settings page without a change keeps the configuration", "statement": "Opening the settings page of the client or of the server and pressing save without editing anything leaves the configuration as it was: every option keeps the value it had (from the configuration file, or, if there is none, the running one), and so does every user, host rule and service.", "quantifier": "all configuration files and running configurations, all options of both programs, all durations, remote addresses, users and services", "why_tests_cant": "the page, the two web services and the two configuration readers are written apart, in two languages; a test shows one configuration, and the losses depend on which option is set and on the form of the value", "anchors": ["libcs/web/front/src/utils/map.ts:humanizeDuration", "libcs/web/front/src/components/ClientConfigForm/index.vue", "libcs/web/front/src/components/ClientConfigForm/interface/index.ts:transToBackendConfig", "libcs/web/front/src/components/ClientConfigForm/components/GeneralSetting.vue", "libcs/web/front/src/components/ServerConfigForm/index.vue", "libcs/web/front/src/utils/eleValidate.ts:validatorTimeFormat", "libcs/client/config.go", "libcs/server/config.go", "libcs/client/web/api/api.go:SaveConfigToFile", "libcs/server/web/api/api.go:GetConfigFromFile", "libcs/server/web/service/service.go:SeparateConfig", "libcs/server/server.go:parseTCPs", "libcs/server/server.go:parseHost"]}
{"id": "C92", "title": "A duration that gt writes is read back exactly", "statement": "A duration that gt writes into a configuration file or an answer of its web service is read back as the same duration; two different durations are never written alike, and a text that is accepted as a duration is in the range of durations.", "quantifier": "all durations of 64 bits, all texts", "why_tests_cant": "there are 2^64 durations, with fractions, carries between units and one value whose negation overflows", "anchors": ["libcs/config/duration.go:Duration.String", "libcs/config/duration.go:Duration.Set", "libcs/config/duration.go:Duration.UnmarshalYAML", "libcs/config/duration.go:Duration.MarshalYAML", "libcs/config/duration.go:Duration.UnmarshalJSON", "libcs/config/duration.go:Duration.MarshalJSON"]}
{"id": "C93", "title": "With -authAPI the platform decides", "statement": "With -authAPI a client gets a tunnel exactly when the platform, asked about the ID, the secret and the prefixes the client presented, answers that it may; it then serves, of the prefixes it asked for, its ID and those in the answer, and no others; a prefix that the platform withdraws is not served after the client's next handshake and is free when the client has gone; and an outage of the platform is not held against the clients.", "quantifier": "all IDs, secrets and requested prefixes, all answers of the platform, all histories of handshakes, reloads and ended connections", "why_tests_cant": "ranges over all answers, including broken ones, and over all histories of grants and withdrawals; the existing tests have no platform", "anchors": ["libcs/server/server.go:Server.authWithAPI", "libcs/server/server.go:Server.authUserWithAPI", "libcs/server/conn.go:conn.handleTunnel", "libcs/server/client.go:client.addTunnel"]}
{"id": "C94", "title": "Read deadlines on the connection that carries a peer-to-peer visitor's requests", "statement": "On the connection over which a peer-to-peer visitor's requests reach the client, a read deadline holds until it is changed: a read still waiting at the deadline ends with an error then, none is ended so before the last deadline that was asked for, a cleared deadline ends none, and a waiting read can always be ended at once at the end of a request. So a visitor that sends part of a request is dropped after 30 seconds.", "quantifier": "all sequences of deadlines, reads, arriving data, clock ticks, timers and aborts; all interleavings of the two goroutines at the end of a request", "why_tests_cant": "timers race with reads, and the deadlock needs data to arrive between two particular steps of another goroutine", "anchors": ["libcs/client/api/conn.go:Conn.SetReadDeadline", "libcs/client/api/conn.go:Conn.Read", "libcs/client/std/pipe.go:PipeReader.StopPending", "libcs/client/client.go:New"]}
{"id": "C95", "title": "A client can be stopped while peer-to-peer visitors arrive", "statement": "Until a client is stopped every peer-to-peer visitor that a tunnel brings is handed to the client's own HTTP server exactly once, in order, and the tunnel waits for nothing but that server's accept; and a client can be stopped at any time, by Close or Shutdown, without crashing the process it runs in.", "quantifier": "all interleavings of any number of connection loops, arriving visitors, the HTTP server's accept loop and the goroutine that stops the client", "why_tests_cant": "the crash needs a visitor to arrive between two steps of Close on another goroutine", "anchors": ["libcs/client/client.go:Client.Close", "libcs/client/client.go:Client.Shutdown", "libcs/client/conn.go:conn.processP2P", "libcs/client/api/listener.go:VirtualListener.Close"]}
{"id": "C96", "title": "What QUIC connections with -bbr hold is released once and not used afterwards", "statement": "With -bbr, whatever a QUIC connection holds outside Go's heap is released when its dial fails or when it is closed, is released once however many goroutines close it, and is not used by a Write or Read afterwards; and a peer cannot stop the connection from delivering its data by opening streams.", "quantifier": "all histories of dials with any outcome and closes; all interleavings of any number of goroutines that read, write and close one connection; all sequences of streams a peer opens", "why_tests_cant": "the C++ objects are invisible to Go's tests and race detector; the use after free needs a Close between two steps of another goroutine", "anchors": ["libcs/conn/msquic/msquicConn.go:MsquicDial", "libcs/conn/msquic/msquicConn.go:MsquicConn.Close", "libcs/conn/msquic/conneciton.go:Connection.OpenStream", "libcs/conn/msquic/conneciton.go:OnPeerStreamStarted", "libcs/conn/msquic/stream.go:stream.Write", "libcs/conn/conn.go:Connection.Write"]}
{"id": "C97", "title": "Changes made on the web pages do not undo each other", "statement": "However many changes are saved on the settings page and on the account page before gt is restarted, in whatever order and by however many browsers, the next start has, for every option, the value that the last save that says something of it gave it; in particular a new password is not undone by a later save that does not touch it.", "quantifier": "all sequences of saves on both pages, all interleavings of two saves, all running configurations, config files and command lines of the next start, both programs", "why_tests_cant": "ranges over all histories of saves; the losses need two saves, and depend on which one reads the file when", "anchors": ["libcs/client/web/api/api.go:GetUserInfo", "libcs/server/web/api/api.go:GetUserInfo", "libcs/server/web/api/api.go:SaveConfigToFile", "libcs/server/web/service/service.go:InheritConfig", "libcs/web/front/src/layouts/components/Header/components/InfoForm.vue"]}
{"id": "C98", "title": "What the settings page lets through gt starts with", "statement": "An address or port range that the settings page lets through is one that gt can use: with a text accepted for a listening address, the server (or the forwarding client) listens on the host and port it names, a port range accepted for the TCP ports is one the server takes, and a time accepted for a duration is taken as the sum of its parts; a text gt cannot use is refused on the page.", "quantifier": "all texts typed into the address, port-range and time fields, all hosts and ports, whatever services the machine knows by name", "why_tests_cant": "ranges over all texts: the page's regular expressions, parseInt and gt's own parsers have to agree on each", "anchors": ["libcs/web/front/src/utils/eleValidate.ts:validatorAddr", "libcs/web/front/src/utils/eleValidate.ts:validatorRange", "libcs/web/front/src/components/ServerConfigForm/components/NetworkSetting.vue", "libcs/web/front/src/components/ServerConfigForm/components/TCPSetting.vue", "libcs/web/front/src/components/ClientConfigForm/components/TCPForwardSetting.vue", "libcs/server/server.go:Server.Start", "libcs/client/client.go:Client.Start", "libcs/util/portrange.go", "libcs/web/front/src/utils/eleValidate.ts:validatorTimeFormat"]}
{"id": "C99", "title": "A working tunnel stays up", "statement": "As long as the network carries their messages, and is not too slow for the configured timeouts, neither the client nor the server ends a tunnel because of a timeout: not one nobody uses, and not one on which data goes in one direction only, nor because one service is slow.", "quantifier": "all timeouts of client and server, all delays, whatever is sent by visitors and services and when, and all interleavings of messages and deadlines", "why_tests_cant": "the deadlines of the two ends and the pings depend on each other: a test would have to run every pattern of traffic and silence for minutes", "anchors": ["libcs/client/conn.go:conn.IsTimeout", "libcs/client/conn.go:conn.readLoop", "libcs/client/task.go:httpTask.process", "libcs/client/peer.go:respAndClose", "libcs/server/conn.go:conn.readLoop", "libcs/server/conn.go:conn.process", "libcs/conn/quicConn.go:QuicConnection", "libcs/client/conn.go:conn.dial", "libcs/client/conn.go:conn.processServiceData"]}
{"id": "C100", "title": "Whoever has finished sending is still answered", "statement": "A visitor's connection and the service behind it end the way one TCP connection would: what one side has sent before it ends is delivered before its end is, and one side having finished sending does not take away what the other side still has to say or has already said.", "quantifier": "all byte sequences of both sides, all moments at which either side finishes sending, all interleavings of both ends' loops with the frames between them, and every loss a reset may cause", "why_tests_cant": "which bytes are lost depends on the interleaving of two processes' loops with two peers that end at any moment; a test sees the order that happens on its machine", "anchors": ["libcs/server/conn.go:conn.process", "libcs/server/conn.go:conn.readLoop", "libcs/server/conn.go:conn.handle", "libcs/client/conn.go:conn.readLoop", "libcs/client/conn.go:conn.processData", "libcs/client/task.go:httpTask.process"]}
{"id": "C101", "title": "A server that is told to stop stops", "statement": "When a server is told to stop, at once (Close) or gracefully (Shutdown), it tells each of its clients, closes their tunnels and stops, after a bounded number of steps, whatever any one client does.", "quantifier": "any number of clients and tunnels, all orders in which the tables are walked, and all moments at which tunnels stall, recover, end and are removed, and visitors arrive", "why_tests_cant": "it depends on a client that does not read at the moment the server writes to it; the tests' clients always read", "anchors": ["libcs/server/server.go:Server.Close", "libcs/server/server.go:Server.Shutdown", "libcs/server/client.go:client.close", "libcs/server/client.go:client.reconnect", "libcs/server/client.go:client.removeTunnel", "libcs/server/client.go:client.getTunnel", "libcs/conn/conn.go:Connection.SendReconnectSignal", "libcs/conn/conn.go:Connection.SendForceCloseSignal"]}
{"id": "C102", "title": "Nothing is written behind a torn frame", "statement": "What arrives over a tunnel, however and whenever it ends, is the frames that were written, each goroutine's in its order, and at most the beginning of one more: no visitor and no service gets bytes that were meant for another, also when a Write fails half-way because the peer does not read. Such a Write ends within the timeout.", "quantifier": "any number of goroutines writing any frames to one tunnel, all interleavings at the level of single bytes, all moments at which the peer does not read, the deadline passes or the connection is closed", "why_tests_cant": "a frame is torn only when the send buffer is full at the deadline, and it matters only if another goroutine writes before the connection is closed", "anchors": ["libcs/conn/conn.go:Connection.Write", "libcs/conn/conn.go:Connection.SendReconnectSignal", "libcs/conn/conn.go:Connection.SendForceCloseSignal", "libcs/server/conn.go:conn.process", "libcs/client/task.go:httpTask.process", "libcs/client/peer.go:respAndClose"]}
{"id": "C103", "title": "A tunnel that this end has closed ends", "statement": "Once the server or the client has closed a tunnel (because a Write to it failed, or it is told to), no more than what it has read already is treated, its read loop ends without waiting for the peer, and a new visitor is given a tunnel that works if there is one.", "quantifier": "TCP, TLS and QUIC tunnels, all sequences of messages from the peer before and after the closing, all sizes of them and of the pieces read, all schedules; any number of tunnels and of visitors coming and going", "why_tests_cant": "it takes a peer that goes on sending, or says nothing, after this end has closed the tunnel, and visitors arriving just then", "anchors": ["libcs/conn/conn.go:Connection.Close", "libcs/conn/quicConn.go:QuicConnection", "libcs/server/conn.go:conn.readLoop", "libcs/client/conn.go:conn.readLoop", "libcs/server/conn.go:conn.process", "libcs/server/client.go:client.getTunnel"]}
{"id": "C104", "title": "Visitors reach the local address of their service, whichever way they come", "statement": "With every configuration that is accepted, a visitor who comes through the tunnel and one who comes through a peer-to-peer connection are both connected to the host and the port that the service's local URL names (the scheme's port if it names none); if the service takes one of three connections the visitor is served, and no connection is left over; a visitor who cannot be served is told.", "quantifier": "all option lists and files that are accepted, all local URLs (names, IPv4 and IPv6 addresses, with and without ports), all answers of the service to connections", "why_tests_cant": "the local URLs form an infinite set, of which a test sees a few; two URL parsers in two languages have to agree on every one of them", "anchors": ["libcs/client/client.go:parseServices", "libcs/client/conn.go:conn.dial", "libcs/client/conn.go:conn.processServiceData", "libcs/client/task.go:httpTask.setHost", "bin/src/peer/conn.rs:connect_target", "bin/src/peer/connect.rs:connect_target"]}
{"id": "C105", "title": "A peer-to-peer visitor that leaves does not keep its place", "statement": "A client serves at most webrtcRemoteConnections peer-to-peer visitors at a time, and refuses one only when all places are taken; a visitor that goes away, also before its connection is made, gives its place back, so that those who come later are served.", "quantifier": "all limits, all sequences of visitors coming and leaving, of connections made and ended, and of time passing, with -webrtcThread and without", "why_tests_cant": "it takes as many visitors as there are places, each leaving at an inconvenient moment, and waiting for minutes", "anchors": ["libcs/client/conn.go:conn.newPeerTask", "libcs/client/conn.go:conn.newPeerProcTask", "libcs/client/conn.go:conn.readLoop", "libcs/client/peer.go:peerTask.OnConnectionChange", "libcs/client/peer.go:peerTask.CloseWithLock", "libcs/client/peerproc.go:peerProcessTask.init"]}
