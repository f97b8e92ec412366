C["C01"]=("partial",["C01_handshake_roundtrip","C01_oversize_refuted"],"Round trip proved for every handshake that fits 4096 bytes. C01_oversize_refuted: a configuration that does not fit is not refused by the client; it is truncated on the wire or panics.")
C["C02"]=("proved",["C02_chunking_independent","C02_handshake_applies"],"")
C["C03"]=("proved",["C03_registered_names","C03_api_names"],"")
C["C04"]=("proved",["C04_quotas"],"TCP number below 65535 and host number below 2^32-1, as the property says.")
C["C05"]=("partial",["C05_bounded_partial","C05_max_65535_refuted"],"Bounded for every maxHandShakeOptions below 65535; with 65535 the uint16 counter wraps and the number of options read is unbounded.")
C["C06"]=("partial",["C06_length_check_refuted"],"The code violates it: the test is a conjunction of contradictory comparisons and never rejects.")

C["C12"]=("proved",["C12_visitor_to_service","C12_visitor_to_service_prefix","C12_first_payload","C12_first_http","C12_first_tls","C12_first_witness"],"Frames produced by the server's process, any interleaving, any chunking of both connections, any failure of the destination. The hypothesis that a visitor's first payload is not a single byte is discharged by C12_first_payload for every visitor the server routes. Frames are written whole here: Writes that fail half-way are C102's.")
C["C13"]=("partial",["C13_service_to_visitor_partial","C13_service_to_visitor_prefix_partial","C13_hole_refuted","C13_hole_witness"],"Proved for all interleavings, chunkings and failures if a visitor's connection that has failed once takes nothing more. A Write that times out (-timeout, 90 s) does not close the connection: a visitor that reads again gets the next frames behind a gap (C13_hole_refuted; the model of slow visitors is C87's).")
C["C14"]=("proved",["C14_server_in_sync","C14_client_in_sync"],"")
C["C15"]=("partial",["C15_zero_frame_panics_refuted","C15_only_zero_frames_partial","C15_no_panic_without_timeout_partial"],"The code violates it: a zero-length data frame for an unknown task panics when a timeout is configured (the panic is recovered and kills the tunnel). Proved that this is the only panic of the loop.")
C["C16"]=("partial",["C16_signals_in_sync_partial","C16_close_in_sync","C16_reconnect_refuted"],"True for ping, close, ready, services, info; the code violates it for the reconnect signal (missing continue).")
C["C17"]=("proved",["C17_routed_to_index","C17_out_of_range"],"")
C["C20"]=("proved",["C20_server_close","C20_server_drains","C20_client_close","C20_client_keeps_tasks"],"")
C["C21"]=("proved",["C21_dead_server","C21_gives_up"],"")
C["C47"]=("partial",["C47_frame_before_ready_refuted","C47_only_before_ready_partial","C47_after_ready_partial","C47_cause_partial","C47_witness"],"The code violates it: a first frame that overtakes the ready signal makes the client dereference a nil service list (C47_frame_before_ready_refuted). That is the only way: whatever bytes arrive and however they are cut, a client that panics had read no ready and no services signal (C47_only_before_ready_partial, C47_after_ready_partial), and the panicking iteration had read the head of such a frame (C47_cause_partial).")
C["C34"]=("partial",["C34_rewrite_partial","C34_chunking_independent","C34_failing_destination","C34_held_back_forever_refuted","C34_reused_buffer_refuted"],"Proved for every split and every failing destination, provided no other goroutine reuses the pooled buffer between BytesPool.Put and the write that follows it. C34_reused_buffer_refuted: the code reads that buffer after returning it, so without the proviso the claim is false. C34_held_back_forever_refuted: the held-back bytes of a request without Host line are never flushed.")
C["C30"]=("partial",["C30_range_parses_partial","C30_pools","C30_accepted","C30_order_independent","C30_zero_zero_refuted"],"Everything proved; the one defect is '0-0', accepted as an empty range.")
C["C31"]=("partial",["C31_decided_early","C31_value_sound","C31_split_independent_partial","C31_undecided","C31_split_2048_refuted"],"Proved whenever the settling line ends within 2049 bytes. Beyond that the limit is only enforced after scanning whatever happens to be buffered, so the outcome depends on the split (C31_split_2048_refuted).")
C["C32"]=("proved",["C32_host_to_id","C32_id_unique","C32_http_routing","C32_never_empty"],"")
C["C33"]=("partial",["C33_safe","C33_complete_partial","C33_complete_first_read","C33_fragmented_refuted","C33_beyond_record_refuted"],"Safety proved for all inputs, completeness for a hello that is buffered when the scan starts. The code violates the rest: a hello split over two reads is refused, and record/handshake lengths are ignored.")
C["C06"]=("partial",["C06_length_check_refuted","C06_with_user_table_partial","C06_any_client_refuted"],"The code violates it: the test is a conjunction of contradictory comparisons and never rejects, so in allow-any mode every length up to 255 is admitted (C06_any_client_refuted). With a user table it does hold, because the table is checked at start (C06_with_user_table_partial).")
C["C07"]=("proved",["C07_exact","C07_only_configured","C07_wire_witness"],"The decision of each authentication function, and end to end from the bytes of a connection, however split, to the tunnel.")
C["C08"]=("partial",["C08_bound_partial","C08_configured_users_kept","C08_configured_need_secret","C08_race_refuted","C08_leak_refuted","C08_api_idle_refuted"],"Proved for every history in which no last tunnel of an ID goes while another connection of that ID is between authentication and registration; the code violates the rest (C08_race_refuted: two live tunnels with different secrets; C08_leak_refuted; C08_api_idle_refuted).")
C["C09"]=("proved",["C09_exact","C09_per_ip","C09_release_pending","C09_release_works","C09_no_release"],"Exact as long as one IP has fewer than 2^32 failures since its last release (uint32 counter).")
C["C42"]=("proved",["C42_table_admissible","C42_good_tables_start","C42_nil_entry_refuted"],"C42_nil_entry_refuted is an extra finding: an empty entry in the users file panics.")
C["C10"]=("partial",["C10_never_a_signal","C10_signals","C10_at_least_one_partial","C10_zero_refuted"],"The upper bound, which is what keeps frames and signals apart, holds for every number of visitors and every interleaving. The lower bound 1 holds unless 3002 visitors are caught inside the wrap together, when identifier 0 is given out (C10_zero_refuted).")
C["C11"]=("partial",["C11_unique_before_wrap_partial","C11_around_the_wrap_partial","C11_order_partial","C11_wrap_witness","C11_long_lived_refuted","C11_wrap_race_refuted"],"True until the 32-bit counter wraps (about 4.29e9 visitors of one client); the code violates it at the wrap.")
C["C18"]=("proved",["C18_closed_once","C18_first_reason","C18_reason_kept"],"")
C["C19"]=("proved",["C19_local_one","C19_remote_none","C19_failed_none"],"A task whose tunnel failed sends none (the tunnel is closed).")
C["C22"]=("partial",["C22_least_loaded","C22_assignment","C22_sequential_partial","C22_concurrent_refuted"],"Proved for every iteration order, with the values the loads return; choice and increment are not atomic, so simultaneous visitors may share a tunnel while another is idle (C22_concurrent_refuted).")
C["C23"]=("partial",["C23_exact_partial","C23_upload_bypass_refuted"],"Exact when speed + piece length stays below 2^32, which holds for downloads (pieces of at most 4096 bytes) with speed <= 2^32-4096. For uploads the piece length is a client-chosen 32-bit field and the counter wraps: the limit can be bypassed.")
C["C28"]=("partial",["C28_ports_partition_partial","C28_no_stale_kept","C28_closing_returns","C28_opened","C28_stale_refuted","C28_port_change_refuted"],"Proved for every history of registrations, reloads, failures and disconnections of the clients that share a pool, as long as no failing registration leaves a closed listener behind. The code violates the rest: such a leftover returns its port a second time (C28_stale_refuted), and a reload that changes a port reopens the old one (C28_port_change_refuted).")
C["C24"] = ("partial", ["C24_visitors_partial","C24_one_owner","C24_conflict_unchanged","C24_conflict_refused","C24_C25_stale_tunnel_refuted","C24_tcp_refusal_refuted"],
 "Proved for every clean history (hist: reloads on a tunnel holding the configuration registered last, replacement by a new process, conflicts, disconnections, timers) and every map order: visitors of a prefix reach a client iff it is in the configuration the client registered last. Conflict leaves the registry unchanged in every state. False without the restrictions: a tunnel with a stale configuration that goes last deletes another client's prefix; a reload refused for its TCP ports has already replaced the prefixes.")
C["C25"] = ("partial", ["C25_no_leak_partial","C25_free_again_partial","C24_C25_stale_tunnel_refuted","C24_tcp_refusal_refuted"],
 "Proved for the same clean histories. Refuted in general: after a half-finished reload the new prefix stays routed to a dead client for ever; same after a reload refused for TCP ports.")
C["C26"] = ("proved", ["C26_limit","C26_limit_configured","C26_below_limit_admitted","C26_init_race_refuted"],
 "Proved for every interleaving of the operations. C26_init_race_refuted is the converse failing: a connection that comes between getOrCreateClient and init is refused as over the limit although there is no tunnel.")
C["C27"] = ("partial", ["C27_reload_accepted_partial","C27_reload_refusals","C27_full_pool_refuted","C27_back_refuted"],
 "Proved when the pool is not full and the configuration was not replaced in the last 60 s. C27_full_pool_refuted: with as many tunnels as allowed every reload is refused; C27_back_refuted: going back to the previous configuration within 60 s is refused.")
C["C29"] = ("partial", ["C29_injective_partial","C29_deterministic","C29_parsed_own_index","C29_collisions","C29_same_checksum_skips","C29_reload_ignored_refuted","C29_grant_not_covered_refuted"],
 "Injective for configurations of at most 256 services whose prefixes are non-empty, of characters >= space and not ending in -tls (any mixture with TCP ports); each parsed configuration has distinct service indices. Refuted in general: 'a' over TLS and 'a-tls' collide, as do prefixes with control bytes; the reload is then reported accepted and not done. With API authentication the grant is not covered by the checksum.")
C["C35"] = ("partial", ["C35_keeps_minimum","C35_any_sequence","C35_at_least_one","C35_running_not_idle","C35_idle_until_used","C35_set_running_runs","C35_connects_when_needed","C35_reconnects_only_if_none_idle","C35_running_put_to_wait_refuted","C35_idle_while_running_refuted"],
 "The minimum is kept, for every pool and every sequence of down-scalings. The second half of the claim is false of the code: a connection that is running can be put to wait (C35_running_put_to_wait_refuted), and a connection can be counted as idle while a request runs on it (C35_idle_while_running_refuted).")
C["C36"] = ("partial", ["C36_at_most_one_left","C36_all_wake_partial","C36_can_return","C36_lost_wakeup_refuted","C36_lost_for_ever"],
 "The claim is false of the code: Close stores the flag and broadcasts without the mutex, so a connection between its load of the flag and Wait sleeps for ever (C36_lost_wakeup_refuted, C36_lost_for_ever). Proved for every interleaving: at most one connection is left asleep, every other one can return, and none is left when nobody was in that window.")
C["C39"] = ("proved", ["C39_reads","C39_no_loss","C39_writes","C39_handover_completes","C39_meet","C39_close_releases","C39_stream"],
 "For any number of concurrent readers and writers and every interleaving. The error values are not modelled.")
C["C40"] = ("proved", ["C40_accepted_only_if","C40_at_most_max_use","C40_unknown_never","C40_works"],
 "For every history of generations and uses (the mutex makes each atomic). Every acceptance goes back to a generation within the lifetime with fewer than maxUse acceptances since; conversely a valid key works.")
C["C44"] = ("partial", ["C44_get_returns_a_set_value","C44_single_value","C44_no_panic_partial","C44_panic_refuted","C44_get_can_return"],
 "For every interleaving: Get returns only a value passed to an earlier Set, and can return once a Set has returned. Set does not panic if the first Set returns before the second is called; C44_panic_refuted: two first Sets at once panic.")
C["C45"] = ("partial", ["C45_round_trip_partial","C45_large_refused","C45_split_length_refuted"],
 "Proved for every number of messages and every split of the stream that does not divide a four-byte length. C45_split_length_refuted: the length is read with a single Read, so a divided length is misread. The writer never refuses; the reader does.")
C["C46"] = ("proved", ["C46_write_frames","C46_connection","C46_count_refuted","C46_after_close_refuted"],
 "For every sequence of writes followed by closes. Extra findings: Write returns more than the length of its argument (C46_count_refuted), and a Write after Close still sends (C46_after_close_refuted).")
C["C38"] = ("proved", ["C38_all","C38_size_exact","C38_oversize_refused","C38_split_independent","C38_progress","C38_round_trip","C38_empty_size_is_end"],
 "For every stream, every way the network splits it and every sequence of read buffer sizes. C38_empty_size_is_end: a chunk-size line without a digit is taken as the end of the body rather than refused.")
C["C41"] = ("partial", ["C41_exactly","C41_attached","C41_order","C41_constraints","C41_random_partial","C41_panic_only_without_url","C41_witness","C41_random_alias_refuted","C41_no_url_panics_refuted","C41_ipv6_without_port_refuted"],
 "Proved for every option list, file and url parser, as an equivalence, except for -remoteTCPRandom: its value is taken through the address of the loop variable (go 1.19), so every service that has one gets the last value of the whole command line (C41_random_alias_refuted; right when all occurrences agree, C41_random_partial). A service of the file without a url makes the client panic instead of refusing (C41_no_url_panics_refuted).")
C["C48"] = ("partial", ["C48_reload_noticed_partial","C48_other_changes_noticed","C48_reload_ignored_refuted","C48_reload_ignored_witness"],
 "False of the code: the compared text leaves out localTimeout and useLocalAsHTTPHost, so a reload that changes only these is refused as unchanged, for every hash. Proved: a change of prefix, url, port or random flag of any service, or of their number or order, is noticed (no comma in prefixes, no space in url texts, no hash collision on the two texts).")
C["C43"] = ("partial", ["C43_counters","C43_condition","C43_exit_sound_partial","C43_exit_complete","C43_bounded","C43_few_late_accepts","C43_witness","C43_exit_early_refuted","C43_gives_up_refuted"],
 "Proved for every interleaving: the counters, and the condition at one instant. Shutdown loads the three counters one after the other: proved sound when no connection is counted between the loads (at most one per listener can be, C43_few_late_accepts), refuted otherwise (C43_exit_early_refuted); after 40 rounds it goes on whatever is left (C43_gives_up_refuted).")
C["C49"] = ("partial", ["C49_right_service_partial","C49_settled","C49_witness","C49_misrouted_refuted","C49_before_ready_refuted"],
 "Proved for every interleaving when the configurations agree where they overlap (appending reloads), and between reloads. False of the code otherwise: during a reload that shifts indices a visitor is connected to another service (C49_misrouted_refuted); a visitor sent before ReadySignal meets a nil service list (C49_before_ready_refuted).")
C["C50"] = ("partial", ["C50_reload_cuts_all_refuted","C50_witness"],
 "False of the code: the deferred function of the server's readLoop closes every visitor of the tunnel whenever a new configuration is read, proved for every state; nothing of the property is left to prove.")
C["C37"]=("proved",["C37_linearizable","C37_no_panic","C37_no_deadlock","C37_sequential","C37_constructor_sequential","C37_constructor_at_most_twice","C37_constructor_refuted","C37_constructor_twice"],
"Full small-step model of map.go/create.go (every atomic access a step). Linearizability for any number of goroutines and any schedule; Range per its documented contract; absence of panics and deadlock; plain-map refinement for sequential use; the constructor may run in vain (refuted in the concurrent case by a concrete history), at most twice per call (tight).")

C["C01"]=("proved",["C01_handshake_roundtrip"],"For every ID, secret and service list whose handshake fits 4096 bytes (what does not fit: C51).")
C["C52"]=("partial",["C52_return_means_answered","C52_return_means_written","C52_panic_only_between_write_and_add","C52_finishes_partial","C52_finishes_witness","C52_dead_tunnel_refuted","C52_early_answer_refuted","C52_stray_refuted"],"Proved: a nil return means every configuration ever written was answered; the wait-group panic can only hit between Write and Add; with all owing tunnels alive and no stray refusal the answers alone let the reload return. False of the code: a tunnel that goes down while it owes an answer blocks every later reload until os.Exit(1); an answer that overtakes Add(1) kills the tunnel by a panic; a refusal read between two reloads blocks every later one.")
C["C53"]=("partial",["C53_timeout_honest","C53_nil_means_was_ready_partial","C53_returns_once","C53_not_asleep_when_ready","C53_awake_returns","C53_witness","C53_other_timer_refuted","C53_gone_again_refuted","C53_timeout_lost_refuted"],"Proved: the timeout error only after the call's own timeout; with no other call timing out, nil only if a tunnel was ready at some moment since the call; no call sleeps on while a tunnel is ready. False of the code: another call's timeout makes a call return nil with no tunnel ever ready; nil although the tunnel is gone again; a timeout that passes before the call is registered is lost.")
C["C54"]=("partial",["C54_ready_tunnels_closed","C54_silent_after_close","C54_shutdown_gentle","C54_shutdown_tells","C54_shutdown_complete","C54_one_more_dial","C54_comes_to_rest","C54_no_loop_is_stuck","C54_witness","C54_shutdown_witness","C54_leak_refuted","C54_shutdown_hangs_refuted"],"Proved: Close closes every tunnel that was ready when it was called; when Shutdown returns every tunnel ever opened has ended and nothing can happen any more; each connect loop dials at most once after the call; only boundedly many steps other than serving follow. False of the code: a tunnel whose handshake is under way at the call is neither closed nor told, serves on after Close has returned, and keeps Shutdown from returning.")
C["C51"]=("partial",["C51_oversize_refuted","C51_sent_is_cut","C51_oversize_never_admitted","C51_witness"],"False of the code: the client never checks the size. Proved for every oversize configuration: what is sent is exactly the first 4096 bytes, and no server admits it (it waits for bytes that never come); for some lists gen panics (C51_oversize_refuted). The positive side is C01.")
C["C55"]=("partial",["C55_in_order","C55_complete_partial","C55_first_is_offer","C55_refused_blocks","C55_too_long_blocks","C55_refused_candidate_refuted","C55_witness"],"Proved for every split into reads: the accepted messages are exactly the messages on the wire, in order; without refusals all complete ones are accepted. False of the code: a refused candidate blocks every later message of the task (and the request is answered 200 all the same); a length beyond the buffer blocks for ever.")
C["C56"]=("partial",["C56_map_bounded","C56_bounded_partial","C56_data_reaches_partial","C56_close_closes_partial","C56_close_refuted","C56_lock_released_partial","C56_stuck_for_ever","C56_deadlock_refuted","C56_limit_refuted","C56_witness"],"Proved when no request carries the id of an earlier one (and before Close): limit, delivery, and the lock is always given back; the table is bounded in every history. False of the code: a request with the id of a live task (a second server, or a restarted one counting from 1) self-deadlocks on the mutex of the table for ever; a task being closed deletes the entry of its successor, so the limit is exceeded and data is lost.")
C["C57"]=("partial",["C57_taken_over","C57_kept_out","C57_forgotten","C57_minute_partial","C57_witness","C57_too_soon_refuted"],"Proved: the take-over leaves only tunnels with the new configuration and remembers the others (up to three); a remembered one is refused while a tunnel with another configuration is there; everything is forgotten once no timer is pending; the full minute when at most three are remembered at a time and none twice. False of the code: RemoveOldest of a timer whose entry was pushed out removes a younger entry, after 10 s in the example.")
C["C58"]=("partial",["C58_accepted_exactly","C58_values","C58_command_line_wins","C58_file_next","C58_default_last","C58_services","C58_server_refuses_bad_file","C58_schemas","C58_witness","C58_witness_command","C58_client_forgets_command_line_refuted","C58_zero_refuted","C58_truncated_refuted","C58_operand_refuted","C58_garbage_refuted","C58_bad_file_witness"],"Proved for every declaration list, command line and usable file: exactly which command lines are accepted, and the value of every option (command line, file, default in that order; repeated values and positions in order, which is what C41 starts from); the server refuses an unusable file. False of the code: an explicit zero is replaced by the default; numbers are cut to the width of the field; repeated and service options accept any text; everything after a stray word is ignored (-allowAnyClient false allows any client); the client overwrites the error of an unusable config file and starts with none of its command-line options.")
C["C59"]=("partial",["C59_reload_exactly","C59_witness","C59_remote_refuted","C59_secret_refuted","C59_numbers_refuted"],"Proved for every configuration: the reload goes on exactly if the start left every option as written. False of the code otherwise: a remote without a scheme, no secret, a number out of range or an explicit zero makes every reload be refused.")
C["C60"]=("partial",["C60_next_start_partial","C60_credentials_partial","C60_request_cannot_change","C60_other_file_refuted","C60_crash_refuted","C60_witness","C60_other_file_witness_refuted","C60_hypotheses"],"Proved for both programs, every request, file and command line whose config path is the file the page writes: the next start has every option the request set (a zero value becomes the default), hidden options keep their values, saving credentials changes only them. False of the code: a process started with -config of another readable file saves to the default path (the path is not carried over), so the next start is unaffected; a crash between creating and writing the file loses the whole configuration.")
C["C61"]=("partial",["C61_authorised_partial","C61_needs_secret_partial","C61_login_exactly","C61_token_works","C61_no_empty_login","C61_pprof_refuted","C61_change_refuted","C61_codec","C61_witness"],"Proved for every history of requests, with unforgeable signatures as the explicit hypothesis (met by a concrete codec, C61_codec) and without -pprof: every administrative action carries a token obtained at most half an hour before from a login, the temporary key, or a change of credentials itself authorised; login succeeds exactly with the right name and password; empty credentials never do. False of the code: with -pprof the profiler is open to everybody; changing the password neither revokes old tokens nor, until a restart, the old password.")
C["C63"]=("partial",["C63_only_the_oldest_goes_partial","C63_bounded_partial","C63_current_kept_partial","C63_full_is_full_partial","C63_ten_rotations_refuted","C63_restart_refuted","C63_foreign_refuted","C63_witness"],"Proved for every history within one process whose clock does not go back, with at most nine size rotations a day and only its own files about: what is in the files is a suffix of what was logged, at most the configured number of files stays, the file being written is never removed, a full file gets nothing more. False of the code: the tenth rotation of a day makes names whose lexical order is not their age, the file being written is unlinked and the rest of the day is lost; a restart on a day with more rotations than files kept loses the new lines; foreign files whose names begin like the log's are removed.")
C["C59"]=("partial",["C59_reload_exactly","C59_change_refused","C59_change_witness","C59_witness","C59_remote_refuted","C59_secret_refuted","C59_numbers_refuted"],"Proved for every configuration: the reload goes on exactly if the start left every option as written; a reload with any other option than those of services and web page changed is refused. False of the code otherwise: a remote without a scheme, no secret, a number out of range or an explicit zero makes every reload be refused.")

C["C64"]=("partial",["C64_kept_running","C64_restarted","C64_told_only_when_leaving","C64_all_told","C64_none_left_partial","C64_orphan_refuted","C64_witness"],"Fully proved: every configuration keeps exactly one worker or pending restart; told only when leaving. Proved in part: at the end all running workers were told, except started-but-unregistered ones; the last clause is false of the code in general (C64_orphan_refuted: a worker restarted while another is drained).")
C["C65"]=("partial",["C65_no_gap_partial","C65_goes_on_partial","C65_two_kinds_refuted","C65_failed_start_refuted","C65_twice_refuted","C65_witness"],"Proved for configurations of one kind when no ready new worker crashes and no timer fires. The full property is false of the code: two kinds (C65_two_kinds_refuted), a new manager that fails (C65_failed_start_refuted), a crash after Ready (C65_twice_refuted).")

C["C66"]=("proved",["C66_collected","C66_once","C66_started","C66_witness"],"Files and paths abstract away symbolic links and races with the file system.")
C["C67"]=("partial",["C67_kinds_partial","C67_commands","C67_witness","C67_example_server_refuted","C67_one_bad_file_refuted","C67_connect_refuted"],"Proved: kinds by services/type, gt server and gt client. False of the code: a server configuration without a type (the project's example) runs as connect; one unreadable file stops all; the file given to gt connect is ignored.")

C["C62"]=("partial",["C62_alphabet","C62_shape","C62_total","C62_no_bias","C62_port","C62_requests","C62_witness","C62_guessable_refuted","C62_same_second_refuted"],"Shape, totality and lack of bias proved; that they cannot be guessed is false of the code: the generator is seeded with the start time in seconds.")

C["C68"]=("partial",["C68_in_range","C68_in_turn","C68_at_once_refuted","C68_bytes_in_order","C68_all_bytes","C68_offer_partial","C68_long_offer_refuted","C68_answer","C68_only_sent","C68_reported","C68_cut_off_refuted","C68_witness"],"All proved except: an offer of 64 KiB or more is mangled (C68_long_offer_refuted), and an answer cut off within a candidate is not reported (C68_cut_off_refuted). Connections opened at the same time may all get the same peer connection (C68_at_once_refuted).")

C["C69"]=("partial",["C69_start_iff","C69_listening","C69_mode","C69_tls_version","C69_close_partial","C69_tunnels_closed_partial","C69_witness","C69_close_witness","C69_quic_stays_refuted","C69_tls_ignored_refuted","C69_failed_start_refuted","C69_late_tunnel_refuted"],"Start and the modes are proved. False of the code: Close does not close the QUIC listener, tlsAddr without a certificate is ignored in silence, a failed Start leaves ports open, a tunnel whose handshake ends after Close has passed its client stays.")

C["C70"]=("partial",["C70_round_trip","C70_manager_round_trip","C70_from_go","C70_bad_length_refused","C70_locked_writers","C70_all_sent","C70_manager_one_at_a_time_partial","C70_timer_between_partial","C70_witness","C70_too_large_refuted","C70_manager_interleaved_refuted","C70_timer_inside_refuted","C70_timer_misread_refuted"],"Proved for all messages up to 8 KiB, all splits, any number of writers of a peer process (they take a lock). False of the code: the writer does not refuse a longer message; the manager's writers take no lock, so header and body of two tasks interleave and neither is read; a timer that fires inside a message loses what was read of it, and the rest is misread.")
C["C71"]=("partial",["C71_reaches_what_it_names_partial","C71_prefix","C71_port","C71_nothing_else","C71_witness","C71_other_characters_refuted","C71_no_default_refuted","C71_unknown_ports_refuted","C71_thread_ignores_label_refuted"],"Proved (an equivalence) for the process, for every label that begins with an ASCII character or has no slash, and every list of services with distinct prefixes and ports. False of the code otherwise: a label beginning with another character reaches the first service; without a host prefix on the first service there is no default; TCP services without a port yet hide each other; the thread always takes the first service.")
C["C72"]=("partial",["C72_only_when_idle","C72_ends_when_idle","C72_open_channel_keeps","C72_timeout","C72_witness","C72_long_timeout_refuted"],"Both directions proved for every history and every timeout. Partial only because the timeout is passed on as 16 bits of seconds: above 65535 s it is another one (C72_long_timeout_refuted; Go leaves the conversion of such a float to the platform, the wrap-around of amd64 is modelled).")
C["C73"]=("partial",["C73_answered_partial","C73_broken_prefix_partial","C73_end_to_end_partial","C73_witness","C73_long_refuted","C73_process_passes_on","C73_process_refuted","C73_process_offer_refuted","C73_process_visitor_refuted"],"Proved for the thread, for messages up to 4094 bytes, also end to end with gt's own visitor side (C68). False of the code: a longer message is cut; with the process, the default, no visitor ever gets an answer, for every offer, answer and candidates: the process first echoes its configuration, which is taken for the answer.")
C["C74"]=("partial",["C74_own_bytes_partial","C74_closed_task_refuted","C74_witness"],"Proved for every interleaving in which nobody touches a buffer after giving it back, which is the case for all users but the tasks of peer-to-peer visitors: those give it back when they are closed, while they may still be answering (C74_closed_task_refuted).")
C["C75"]=("partial",["C75_idle_partial","C75_idle_ends","C75_messages_partial","C75_messages_prefix_partial","C75_witness","C75_idle_refuted","C75_never_opened_refuted","C75_failed_dial_refuted"],"Proved: the timer is right unless a channel is opened while the last one ends; it runs whenever all channels have ended; messages all and in order if every service can be reached. False of the code: the race (C75_idle_refuted); a connected visitor that opens no channel is never closed; a service that cannot be reached blocks the callbacks of its thread for ever, for all visitors on it.")
C["C60"]=(C["C60"][0],C["C60"][1]+["C60_request_changes"],C["C60"][2])
C["C61"]=(C["C61"][0],C["C61"][1]+["C61_first_start"],C["C61"][2])
C["C66"]=(C["C66"][0],C["C66"][1]+["C66_given_file"],C["C66"][2])
C["C76"]=("partial",["C76_ready", "C76_server_ready", "C76_failed_start", "C76_done", "C76_exit", "C76_cut_off", "C76_forced", "C76_requests_kept", "C76_done_asked", "C76_honoured", "C76_client_reloads", "C76_server_reload_refuted", "C76_no_hurry_refuted", "C76_signal_lost_refuted", "C76_early_signal_refuted", "C76_late_client_refuted", "C76_witness"],"All about messages is proved. Signals: SIGHUP reloads a client but shuts a server down without a message (C76_server_reload_refuted); a signal is lost when another one waits, and one sent just after Ready may end the process at once; a client that needs more than ten attempts of 30 s never says Ready.")
C["C77"]=("partial",["C77_first", "C77_once", "C77_acts", "C77_nobody", "C77_stop_lost_refuted", "C77_witness"],"All proved except that none is lost: a stop given while a reload goes on and the new manager does not watch yet is acted on by nobody (C77_stop_lost_refuted).")
C["C78"]=("partial",["C78_address_partial", "C78_ipv6_refuted", "C78_ipv6_witness", "C78_way", "C78_never_plain", "C78_certificate", "C78_accepted", "C78_unknown_scheme_refuted", "C78_every_host", "C78_same_host_refuted", "C78_connections", "C78_witness"],"Proved except: an IPv6 address without a port is bracketed twice (C78_ipv6_refuted), an unknown scheme is ignored when a good remote for the same host follows it (C78_unknown_scheme_refuted), of two remotes of one kind for the same host only the last is used (C78_same_host_refuted).")
C["C79"]=("partial",["C79_keeps_trying_partial", "C79_one_at_a_time", "C79_delay", "C79_after_close", "C79_ends", "C79_quic_refuted", "C79_quic_witness", "C79_stuck_for_ever", "C79_late_task_refuted", "C79_second_server_refuted", "C79_address_refuted", "C79_address_witness", "C79_third_visitor", "C79_third_visitor_witness", "C79_witness"],"Proved when no QUIC dial fails and no task of a lost connection ends after its loop has begun to wait. A failed QUIC dial panics with the mutex locked: nobody dials again (C79_quic_refuted). Such a late task can leave all loops waiting for one another (C79_late_task_refuted). The idle pool is shared by all servers: while one connection is idle no other server is dialled (C79_second_server_refuted). The remote API's later answers change a copy only (C79_address_refuted).")
C["C80"]=("partial",["C80_goes_on_partial", "C80_too_many_files_refuted", "C80_too_many_files_witness", "C80_delay", "C80_closing", "C80_quic_partial", "C80_quic_refuted", "C80_bbr_refuted", "C80_witness"],"The loop tests Timeout() where net/http tests Temporary(): an accept that fails for want of file descriptors ends it for ever (C80_too_many_files_refuted). A QUIC peer that closes its connection without a stream ends it and one that stays without opening a stream holds up everybody else (C80_quic_refuted); with -bbr an idle end suffices (C80_bbr_refuted). Without these every connection is handled, in order.")
C["C81"]=("partial",["C81_read_prefix", "C81_all_readable", "C81_last_bytes_refuted", "C81_eof_missing", "C81_no_timeout_refuted", "C81_deadline_refuted", "C81_deadline_witness", "C81_write_partial", "C81_two_writes_refuted", "C81_refused_write_refuted", "C81_witness"],"Reading is in order and complete while the stream is open; the end can overtake the last queued bytes (C81_last_bytes_refuted), and no more than those (C81_eof_missing). No deadline ends a Read (C81_no_timeout_refuted) and one in the future becomes an idle time of about 2^64 ms (C81_deadline_refuted). Writes one at a time are sent as given; two at once share one descriptor, so one's bytes go twice and the other's never (C81_two_writes_refuted); a refused Write waits for another's completion (C81_refused_write_refuted).")
C["C82"]=("partial",["C82_ok_recent", "C82_probes_apart", "C82_one_answer", "C82_503", "C82_recovers", "C82_unused_id", "C82_no_check_no_credentials", "C82_only_made", "C82_mixed_refuted", "C82_code_refuted", "C82_hang_refuted", "C82_witness"],"Freshness, spacing, 503 exactly for the request's own failure, recovery and the life of the credentials are proved. Auth loads id and secret one after the other, so those of two checks are accepted together (C82_mixed_refuted). The status code of the probe's response is not looked at: an error page is reported as 200 and cached (C82_code_refuted), which is what every probe brings when the API itself uses TLS, as the probe's client is told http://. The probe has no time limit after the tunnel is up and holds the only lock (C82_hang_refuted). The empty credentials outside a check are C08_api_idle_refuted.")
C["C83"]=("partial",["C83_pool_partial", "C83_external_partial", "C83_each_once", "C83_ipv6_refuted", "C83_quic_refuted", "C83_list_witness", "C83_ipv6_witness", "C83_buttons_partial", "C83_kill_refuted", "C83_save_server", "C83_save_client_refuted"],"Exact for tunnels over IPv4. The texts that are compared differ for IPv6 ([::1]:80 and ::1:80), so no IPv6 tunnel is listed as one (C83_ipv6_refuted), nor one over QUIC, whose UDP socket has no remote end (C83_quic_refuted). The kill button never works (C83_kill_refuted). Saving on the client's page writes two JSON documents, of which one may say failure and the other success (C83_save_client_refuted).")
C["C84"]=("partial",["C84_in_order", "C84_answers", "C84_can_send", "C84_wakes_partial", "C84_close_wakes", "C84_lost_wakeup_refuted", "C84_close_lost_refuted", "C84_freed_refuted", "C84_freed_only_closed", "C84_only_with_room", "C84_witness"],"Order and answers are proved for all interleavings. Waiting is right if nothing happens between the look at the queue and the sleep; the look, the flag and the signal are not under the mutex, so that bytes that leave (C84_lost_wakeup_refuted) or a close (C84_close_lost_refuted) in that window wake nobody: the sender sleeps for ever with an empty queue. A close between two messages frees the channel under the sender (C84_freed_refuted).")
C["C85"]=("partial",["C85_in_order", "C85_requests", "C85_every_line_partial", "C85_invalid_line_refuted", "C85_queue", "C85_says", "C85_error_status_refuted", "C85_no_config", "C85_config_checked", "C85_no_offer_refuted", "C85_never_ready_refuted", "C85_ended_by_manager_refuted", "C85_stop_bytes", "C85_not_before", "C85_witness"],"Order, content, the limit of eight and the check of the file are proved for all inputs and interleavings. A line that is not UTF-8 ends the sending for it and all that follow with status 0 (C85_invalid_line_refuted; without such lines all are sent, C85_every_line_partial). HTTP errors are called forwarded. The future of send_offer is dropped without being awaited (C85_no_offer_refuted). The manager cannot read what the worker writes, so it is never ready; its input is a pipe of the manager's and the manager's command to end is sent to the service as a request (C85_ended_by_manager_refuted). handle() after the lines is not modelled.")
C["C86"]=("partial",["C86_in_turn_partial", "C86_all_the_same_refuted", "C86_null_refuted", "C86_jammed_for_ever_refuted", "C86_jam_refuted", "C86_broken_visitor_refuted", "C86_in_order", "C86_goes_on_partial", "C86_witness", "C86_witness_pool"],"Calls of the pool that do not overlap get the threads in turn (C86_in_turn_partial); as each visitor takes three and there are three, all have the same signalling thread (C86_all_the_same_refuted). Overlapping calls can be given a null pointer, since the index moves under a shared lock (C86_null_refuted). A visitor with more than sixteen candidates before its answer, or after its response has ended, stops the signalling thread for all visitors for ever (C86_jammed_for_ever_refuted, reached in C86_jam_refuted and C86_broken_visitor_refuted). Order holds always, progress if loops run or candidates are at most sixteen. That libwebrtc runs callbacks and calls one at a time on that thread is assumed.")
C["C87"]=("partial",["C87_pieces", "C87_prefix_partial", "C87_held_up_refuted", "C87_for_ever_refuted", "C87_held_up_witness", "C87_goes_on", "C87_all_delivered"],"A visitor is sent first parts of its frames in order (C87_pieces); all of them without a gap if no Write to it has timed out (C87_prefix_partial), and if the visitors read all is delivered (C87_all_delivered). One goroutine takes the tunnel's frames and waits for each Write: n frames for a visitor that does not read keep everybody behind it, and the pings, waiting for n timeouts (C87_held_up_refuted); with no timeout, and always at the client, whose writes to the services have no deadline, for ever (C87_for_ever_refuted). With a timeout the loop needs nobody's help (C87_goes_on). After a Write that timed out the connection is neither closed nor marked, so the visitor that reads again gets the next frame behind a gap: C13_hole_refuted.")
C["C88"]=("partial",["C88_second_request_refuted", "C88_spelling_refuted", "C88_second_request_witness", "C88_spelling_witness", "C88_rewrite_refuted", "C88_rewrite_witness"],"For the first request of a connection whose Host field is written \"Host: value\" the routing half is C32_http_routing and the rewriting half C34. It fails for the others: the connection is routed once, so a second request goes where the first one went whatever its Host names (C88_second_request_refuted, for all requests behind a first one); a request without a line beginning with exactly \"Host: \" is not routed at all (C88_spelling_refuted; witnesses with host:, HOST: and Host: without the blank); only the first line of the whole connection beginning with \"Host:\" is replaced, so further requests keep the public host, and a line of a body may be the one replaced (C88_rewrite_refuted).")
C["C89"]=("partial",["C89_refused_exactly", "C89_as_configured_partial", "C89_never_plain_partial", "C89_plain_refuted", "C89_other_address_refuted", "C89_ipv6_refuted", "C89_silent_refuted", "C89_witness"],"Certificates that cannot be had are an error, and nothing else is (C89_refused_exactly). Started with options and an address that can be listened on, all of it holds (C89_as_configured_partial), and with certificates configured it is never served in the clear (C89_never_plain_partial). False of the code otherwise: started without options, configured certificates are not used, http is served under an https URL (C89_plain_refuted); if another program has the address gt serves on some other port but opens the other program's address, with the administrator's key (C89_other_address_refuted), or for an IPv6 address serves nothing (C89_ipv6_refuted); started with options and an address that cannot be listened on it goes on without an error and without the interface (C89_silent_refuted: start runs in a goroutine whose error is not even logged, as the deferred call takes err before it is set).")
C["C90"]=("partial",["C90_deleted_once", "C90_own_answer", "C90_waits_for_libwebrtc_partial", "C90_closing_frees_partial", "C90_no_harm_partial", "C90_two_requests_refuted", "C90_waits_for_ever_refuted", "C90_never_freed_refuted", "C90_freed_refuted", "C90_null_refuted", "C90_foreign_refuted", "C90_witness"],"Holds for every run: nothing is freed twice or before the task is closed (C90_deleted_once), and every call gets its own answer (C90_own_answer). While the task is open a waiting handler waits only for libwebrtc (C90_waits_for_libwebrtc_partial), a task with one connection frees it when closed (C90_closing_frees_partial), and a visitor alone, whose connection could be made and needs one negotiation, does no harm until its task is closed (C90_no_harm_partial). False of the code: a second get-offer on the connection closes a closed channel in a callback and ends the client for all visitors (C90_two_requests_refuted); a task closed while a call is out leaves its handler waiting for ever (C90_waits_for_ever_refuted); a request after the closing makes a connection that is never freed (C90_never_freed_refuted) or uses the freed one (C90_freed_refuted); after a connection could not be made the next message uses a null pointer (C90_null_refuted); any visitor can answer another visitor's offer, by its id (C90_foreign_refuted). CloseWithLock is one step of the model.")
C["C91"]=("partial",["C91_keeps_partial", "C91_keeps_running_partial", "C91_duration_exact", "C91_fraction_refuted", "C91_lost_refuted", "C91_remotes_exact", "C91_remotes_refuted", "C91_users_exact_partial", "C91_users_refuted", "C91_services_exact_partial", "C91_witness", "C91_values_witness"],"Holds: every option except the ones below keeps its value when its value is one the page can carry (C91_keeps_partial, C91_keeps_running_partial). Which values those are is exact: durations of at least zero without a fraction in their largest unit (C91_duration_exact), remote addresses with one '://' (C91_remotes_exact), users whose own numbers are not an explicit zero (C91_users_exact_partial), services likewise (C91_services_exact_partial). False of the code: webrtcConnections, webrtcThreadMode and bbr of the client, quicAddr and bbr of the server fall back to their defaults (C91_lost_refuted); a duration with a fraction such as 1.5s silently becomes at most a thousandth of itself (C91_fraction_refuted); a second remote without a protocol becomes '...://undefined' (C91_remotes_refuted); a user that is allowed no TCP port or no host gets the global number (C91_users_refuted). An input is taken to leave a value alone that the user does not edit; validators left out only make the page refuse more.")
C["C92"]=("proved",["C92_read_back", "C92_distinct", "C92_in_range", "C92_witness"],"The text functions are Go's time.Duration.String and time.ParseDuration, modelled from their source; the fraction is computed exactly, as Go does for texts with no more digits than the unit has.")
C["C93"]=("partial",["C93_admitted_iff", "C93_asked_partial", "C93_tunnel", "C93_only_granted", "C93_asked_refuted", "C93_outage_refuted", "C93_null_refuted", "C93_withdrawn_refuted", "C93_witness", "C93_past_witness", "C93_withdrawn_witness"],"Holds: who is admitted (C93_admitted_iff, and from the bytes of a connection C93_tunnel), and in every history a visitor of a prefix reaches only a client whom the platform granted it in some handshake (C93_only_granted). What the platform is asked is what was presented, if it is UTF-8 (C93_asked_partial); an ID that is not is asked about under another name (C93_asked_refuted). False of the code: while the platform does not answer every attempt counts as a wrong password and the address is shut out (C93_outage_refuted); an answer with null for the list is refused (C93_null_refuted); the checksum is taken before the grant is applied, so after a withdrawal a reload is accepted with the prefix still served, and when the client has gone the prefix is registered for ever (C93_withdrawn_refuted).")
C["C94"]=("partial",["C94_first_read_in_time_partial", "C94_not_early_partial", "C94_abort_partial", "C94_result", "C94_only_first_read_refuted", "C94_half_request_refuted", "C94_early_refuted", "C94_cleared_refuted", "C94_abort_deadlock_refuted", "C94_witness"],"Holds for the first read after the deadline was set (C94_first_read_in_time_partial); no read is ended before the last deadline if no timer is live when it is changed (C94_not_early_partial). False of the code: Read stops the timer when it returns, so the deadline is gone after the first read (C94_only_first_read_refuted) and a visitor that sends one byte stays for ever (C94_half_request_refuted); SetReadDeadline does not stop the timer it replaces, so a read can be ended at an old deadline (C94_early_refuted) or with none (C94_cleared_refuted); and the abort at the end of a request blocks for ever, with net/http's lock held, exactly if the read ended by itself before and its goroutine has not yet said so (C94_abort_deadlock_refuted, C94_abort_partial).")
C["C95"]=("partial",["C95_shutdown_safe", "C95_handed_over", "C95_not_held_up", "C95_close_partial", "C95_close_crash_refuted", "C95_after_close_refuted", "C95_close_exact_refuted", "C95_witness"],"Holds for Shutdown, which waits for the connection loops first (C95_shutdown_safe), and the hand-over is exact (C95_handed_over, C95_not_held_up). False for Close: it closes the channel into which readLoop sends, so a visitor whose first frame has been read crashes the process (C95_close_crash_refuted), also after Close has returned (C95_after_close_refuted). Exactly then: a crash can follow from every state in which some loop can still bring a visitor when the channel is closed (C95_close_exact_refuted), and from no other (C95_close_partial).")
C["C96"]=("partial",["C96_account", "C96_clean_partial", "C96_failed_dial_refuted", "C96_freed_once", "C96_write_after_close_refuted", "C96_in_flight_refuted", "C96_safe_partial", "C96_third_stream_refuted", "C96_two_streams_partial", "C96_witness"],"Exact account of what is held (C96_account). Released once (C96_freed_once), and everything is released for connections that were made (C96_clean_partial), but every failed dial leaves at least one object for ever (C96_failed_dial_refuted). A Write after Close, which conn.Connection.Write does not refuse, uses freed memory (C96_write_after_close_refuted), as do Reads and Writes caught between two steps (C96_in_flight_refuted); writes that wait for their acknowledgement do not (C96_safe_partial). A third stream blocks the connection's callback thread for good (C96_third_stream_refuted); two do not once the connection is accepted (C96_two_streams_partial).")
C["C97"]=("partial",["C97_last_change_partial", "C97_credentials_partial", "C97_page_undoes_refuted", "C97_second_save_refuted", "C97_alone_partial", "C97_overlap_refuted", "C97_window_refuted", "C97_witness"],"Holds for requests handled one at a time by a process that runs with its default config file (C97_last_change_partial, C97_credentials_partial; C97_alone_partial: handlers that do not overlap are such a sequence). False of the code otherwise: the account page is filled with the values gt runs with (GetUserInfo reads the saved ones and drops them), so changing pprof there after changing the password saves the old password again (C97_page_undoes_refuted); with another config file that was missing at first, the second save goes to the default path (C97_second_save_refuted); two overlapping saves lose one (C97_overlap_refuted), and a save that reads while another has emptied the file puts back the options of the start (C97_window_refuted).")
C["C98"]=("partial",["C98_address", "C98_accepts_partial", "C98_address_refuted", "C98_forward", "C98_forward_refuted", "C98_refuses", "C98_range", "C98_range_refuted", "C98_time_accepts", "C98_time", "C98_time_refuted", "C98_time_witness", "C98_witness"],"C98_address says for every text the page lets through whether the server can listen with it: exactly if it is a port, host:port or [host]:port, and then on that host and port (1..65535). Of host names with a port of at most five digits the page lets all through (C98_accepts_partial). False otherwise: an IPv4 address without a port gets through if its last number has two digits, and the server then ends instead of starting (C98_address_refuted); a port alone gets through for the forwarding client, which then does not start (C98_forward_refuted; with a colon it does, C98_forward); port ranges in the wrong order or above 65535 get through, a single port does not (C98_range, C98_range_refuted). A time the page lets through (C98_time_accepts: numbers with units, exactly) is taken as its sum if that is a duration, and refused by gt otherwise (C98_time, C98_time_refuted). Texts gt takes and the page refuses: C98_refuses, C98_time_witness. Left out: whether the host resolves and whether the port is free.")
C["C99"]=("partial",["C99_stays_up_partial", "C99_unidirectional_partial", "C99_quic_refuted", "C99_quic_any_refuted", "C99_timeouts_refuted", "C99_no_pings_refuted", "C99_upload_refuted", "C99_busy_refuted", "C99_busy_rest_refuted", "C99_never_busy", "C99_witness"],"Over TCP and TLS a tunnel stays up in every execution if the server's timeout is longer than the client's remote timeout and one message's delay, and than half of the remote timeout and three delays, and a message there and back takes less than three times half of the remote timeout (C99_stays_up_partial; with gt's own settings any delay below 22.5 s will do). With -timeoutOnUnidirectionalTraffic the client's answers have to come in time as well (C99_unidirectional_partial). False otherwise: over QUIC (quic-go) a tunnel ends once nothing comes from the server for half of the remote timeout, as its timeouts are not known to IsTimeout (C99_quic_refuted, C99_quic_any_refuted); with a server timeout up to the client's remote timeout (C99_timeouts_refuted), or with no remote timeout at all (C99_no_pings_refuted), tunnels that work end, and gt starts with such settings; with -timeoutOnUnidirectionalTraffic a long upload ends the tunnel with everybody's connections on it (C99_upload_refuted). A client that is busy dialling one visitor's service, which has no timeout and is tried three times, or writing to it, sends no pings: after the server's timeout, or half of the remote timeout if a part of that visitor's message is not yet read, the tunnel ends, with everybody's connections (C99_busy_refuted, C99_busy_rest_refuted; without that C99_never_busy). Left out: surplus tunnels (C35), reloads, -bbr (C81), messages that arrive in parts.")
C["C100"]=("partial",["C100_prefix", "C100_settles", "C100_visitor_first_partial", "C100_service_first_partial", "C100_half_close_refuted", "C100_in_flight_refuted", "C100_reset_refuted", "C100_witness"],"In every execution each side has got a prefix of what the other said (C100_prefix), and gt comes to rest after finitely many steps of its own (C100_settles). At rest, what the side that ends first has said is delivered whole and then its end, provided a reset has cost it nothing (C100_visitor_first_partial, C100_service_first_partial). The rest is false: gt takes the visitor's end of one direction for the end of the connection. A service that answers when it has seen the end of the question never gets an answer through (C100_half_close_refuted: no execution); an answer of any length that was on its way is lost (C100_in_flight_refuted); a service's last words can be lost to a visitor who was still sending (C100_reset_refuted). Left out: Writes that fail or wait, the tunnel's end, the dial, how bytes are framed (C12, C13).")
C["C101"]=("partial",["C101_bounded", "C101_all_closed", "C101_goes_on", "C101_goes_on_partial", "C101_stalled_refuted", "C101_meanwhile_refuted", "C101_first_refuted", "C101_untold_refuted", "C101_witness"],"The server's own steps are bounded in every execution (C101_bounded); when it has stopped every tunnel is closed, and its client was told unless the connection had ended before or the signal's Write had hit its deadline (C101_all_closed). With a write deadline (the server's timeout is not 0, conn/conn.go 45-50) it can always go on (C101_goes_on); otherwise the one thing that holds it is a tunnel without room that it is writing to (C101_goes_on_partial): then, with timeout 0 or over QUIC with -bbr, which sets no deadlines, a client that keeps its connection up but does not read keeps the server from ever stopping (C101_stalled_refuted; Shutdown's limit of 40 rounds comes after). While such a client is being written to, up to the deadline if there is one, no other client is told or closed, its visitors get no tunnel, a ping holds its other tunnels too, and tunnels of it that end stay in its table (C101_meanwhile_refuted; C101_first_refuted: reached with any number of clients, either way of stopping). Shutdown tells a client by one of its tunnels only, which may have ended (C101_untold_refuted). Left out: the listeners and counters (C43), TCP ports, clients and tunnels that are added meanwhile.")
C["C102"]=("partial",["C102_whole_partial", "C102_own_bytes_partial", "C102_services_own_bytes_partial", "C102_in_time_partial", "C102_mixed_refuted", "C102_mixed_services_refuted", "C102_last_word_refuted", "C102_torn_signal_refuted", "C102_extended_refuted", "C102_witness", "C102_services_witness"],"Holds over a connection that takes nothing more once a Write has failed (crypto/tls) and without a timeout (C102_whole_partial; C102_own_bytes_partial: what a visitor gets is the beginning of what its service sent, wherever the tunnel ends; C102_services_own_bytes_partial: what a service gets is the beginning of what its visitor sent, unless the end is a read timeout). Over plain TCP with a timeout a Write that times out leaves a torn frame, the connection is closed only some steps later, and a frame written in between completes the torn one: visitor t gets the bytes of visitor u's answer (C102_mixed_refuted, for every two visitors and every answer that fits), and t's service what u has sent (C102_mixed_services_refuted). The last task of a closing tunnel does it itself: its close signal goes out behind its own torn frame (C102_last_word_refuted). A torn reconnect signal is ignored, the connection stays, and the client reads the next visitor's frame from its middle (C102_torn_signal_refuted). A Write ends within the timeout after the last Write was begun (C102_in_time_partial), but every Write that begins puts the deadline off for all: one that gets nothing out does not end as long as others begin often enough (C102_extended_refuted). What QUIC streams do after a deadline is not modelled; that last signal is written once instead of twice.")
C["C103"]=("partial",["C103_little_more_partial", "C103_loop_ends_partial", "C103_served_partial", "C103_goes_on_refuted", "C103_peer_decides_refuted", "C103_black_hole_refuted", "C103_witness"],"Holds over TCP and TLS: after the closing at most the message in hand is treated if there is a read timeout, otherwise also what the reader's 4096 bytes held (C103_little_more_partial); the loop always has a step that waits for nobody, and finitely many (C103_loop_ends_partial); a visitor is lost only as long as the loop of the tunnel it was given has such a step to do (C103_served_partial). Over QUIC (without -bbr) closing the tunnel closes a quic-go stream's writing direction only: everything the peer sends afterwards is treated as before (C103_goes_on_refuted), without a read timeout the loop ends only after the peer has ended (C103_peer_decides_refuted; or nothing at all has come from it for quic-go's idle timeout), and until then the tunnel stays listed at the server, with no tasks: every new visitor is given it and lost although a working tunnel is there (C103_black_hole_refuted). Simplified: the peer's frames are whole (C102); a loop that is itself held up by a slow visitor (C87) is a schedule in which its steps come late.")
C["C104"]=("partial",["C104_exactly", "C104_same_partial", "C104_served_partial", "C104_ipv6_refuted", "C104_empty_port_refuted", "C104_no_such_address_refuted", "C104_left_open_refuted", "C104_not_told_refuted", "C104_witness", "C104_not_told_witness"],"C104_exactly says exactly which local URLs are reached: the peer process reaches what the URL names, always; the tunnel's visitors do if and only if the URL's host part ends neither in a colon nor in a bracket. Whenever both reach something, it is the same, unless it ends in a colon (C104_same_partial, for URLs that name nothing, too). The full statement fails: an IPv6 address without a port is not given the scheme's and nobody is served through the tunnel (C104_ipv6_refuted); an empty port is port 0 for the client and the scheme's for the peer process (C104_empty_port_refuted); ports above 65535, and two ports, are accepted (C104_no_such_address_refuted); with useLocalAsHTTPHost and a host of more than 200 bytes no visitor is served, and each leaves up to three connections to the service that nobody closes before the garbage collector does (C104_left_open_refuted); otherwise C104_served_partial; a visitor whose service takes no connection is not told: whatever goes through the tunnel, the client only notes the failure and the visitor waits (C104_not_told_refuted). Simplified: no user names in URLs, names compared as texts, the libraries' parsers as described in LocalModel.v.")
C["C105"]=("partial",["C105_limit", "C105_two_minutes_partial", "C105_all_taken_refuted", "C105_never_refuted", "C105_witness"],"The limit holds and a visitor is refused only when all places are taken (C105_limit). A place whose connection has not been made (and, without -webrtcThread, whose process has not been started) is given back within two minutes (C105_two_minutes_partial). The full statement fails: the close frame that the server writes when a visitor leaves is looked up among the tasks only, so that as many visitors as there are places, leaving at once, keep everybody else out for two minutes (C105_all_taken_refuted); without -webrtcThread the timer is stopped as soon as the process runs, and from then on only the end of the process gives the place back, however long that takes (C105_never_refuted; the process has an idle timer of its own, C72). Simplified: identifiers are not used twice and the lock is held for one step (C56 says what happens otherwise).")
