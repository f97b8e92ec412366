(* Assumptions.v -- generated by tools/assumptions.py: what every theorem of MANIFEST.json rests on *)
From Verif Require Props_Accept.
From Verif Require Props_Answer.
From Verif Require Props_Auth.
From Verif Require Props_Bbr.
From Verif Require Props_Black.
From Verif Require Props_Block.
From Verif Require Props_Buf.
From Verif Require Props_Chan.
From Verif Require Props_Checksum.
From Verif Require Props_Chunked.
From Verif Require Props_ClientClose.
From Verif Require Props_Clog.
From Verif Require Props_Command.
From Verif Require Props_Conc.
From Verif Require Props_Connect.
From Verif Require Props_Deadline.
From Verif Require Props_Dialer.
From Verif Require Props_Dispatch.
From Verif Require Props_Dur.
From Verif Require Props_First.
From Verif Require Props_Flags.
From Verif Require Props_Form.
From Verif Require Props_Forward.
From Verif Require Props_Frames.
From Verif Require Props_Gone.
From Verif Require Props_Half.
From Verif Require Props_Handshake.
From Verif Require Props_HostRewrite.
From Verif Require Props_Http.
From Verif Require Props_Idle.
From Verif Require Props_Keep.
From Verif Require Props_KeepAlive.
From Verif Require Props_Launch.
From Verif Require Props_Leave.
From Verif Require Props_Local.
From Verif Require Props_LocalTold.
From Verif Require Props_Log.
From Verif Require Props_Manager.
From Verif Require Props_Op.
From Verif Require Props_PageRules.
From Verif Require Props_PageTimes.
From Verif Require Props_Peer.
From Verif Require Props_PeerIdle.
From Verif Require Props_PeerLife.
From Verif Require Props_PeerPool.
From Verif Require Props_Pipe.
From Verif Require Props_Place.
From Verif Require Props_Platform.
From Verif Require Props_Ports.
From Verif Require Props_Qobj.
From Verif Require Props_Rand.
From Verif Require Props_Ready.
From Verif Require Props_Reconn.
From Verif Require Props_Reg.
From Verif Require Props_Reload.
From Verif Require Props_Reopt.
From Verif Require Props_Route.
From Verif Require Props_Send.
From Verif Require Props_Services.
From Verif Require Props_Shutdown.
From Verif Require Props_Start.
From Verif Require Props_Status.
From Verif Require Props_Stdio.
From Verif Require Props_Stop.
From Verif Require Props_SyncMap.
From Verif Require Props_Tcp.
From Verif Require Props_Thread.
From Verif Require Props_Token.
From Verif Require Props_Torn.
From Verif Require Props_TornRead.
From Verif Require Props_TornSvc.
From Verif Require Props_Wait.
From Verif Require Props_WebAuth.
From Verif Require Props_WebConf.
From Verif Require Props_WebList.
From Verif Require Props_WebSaves.
From Verif Require Props_WebStart.
From Verif Require Props_Wire.
From Verif Require Props_Worker.
Print Assumptions Verif.Props_Handshake.C01_handshake_roundtrip.
Print Assumptions Verif.Props_Handshake.C02_chunking_independent.
Print Assumptions Verif.Props_Handshake.C02_handshake_applies.
Print Assumptions Verif.Props_Handshake.C03_registered_names.
Print Assumptions Verif.Props_Handshake.C03_api_names.
Print Assumptions Verif.Props_Handshake.C04_quotas.
Print Assumptions Verif.Props_Handshake.C05_bounded_partial.
Print Assumptions Verif.Props_Handshake.C05_max_65535_refuted.
Print Assumptions Verif.Props_Handshake.C06_length_check_refuted.
Print Assumptions Verif.Props_Auth.C06_with_user_table_partial.
Print Assumptions Verif.Props_Auth.C06_any_client_refuted.
Print Assumptions Verif.Props_Auth.C07_exact.
Print Assumptions Verif.Props_Wire.C07_only_configured.
Print Assumptions Verif.Props_Wire.C07_wire_witness.
Print Assumptions Verif.Props_Auth.C08_bound_partial.
Print Assumptions Verif.Props_Auth.C08_configured_users_kept.
Print Assumptions Verif.Props_Wire.C08_configured_need_secret.
Print Assumptions Verif.Props_Auth.C08_race_refuted.
Print Assumptions Verif.Props_Auth.C08_leak_refuted.
Print Assumptions Verif.Props_Auth.C08_api_idle_refuted.
Print Assumptions Verif.Props_Auth.C09_exact.
Print Assumptions Verif.Props_Auth.C09_per_ip.
Print Assumptions Verif.Props_Auth.C09_release_pending.
Print Assumptions Verif.Props_Auth.C09_release_works.
Print Assumptions Verif.Props_Auth.C09_no_release.
Print Assumptions Verif.Props_Conc.C10_never_a_signal.
Print Assumptions Verif.Props_Conc.C10_signals.
Print Assumptions Verif.Props_Conc.C10_at_least_one_partial.
Print Assumptions Verif.Props_Conc.C10_zero_refuted.
Print Assumptions Verif.Props_Conc.C11_unique_before_wrap_partial.
Print Assumptions Verif.Props_Conc.C11_around_the_wrap_partial.
Print Assumptions Verif.Props_Conc.C11_order_partial.
Print Assumptions Verif.Props_Conc.C11_wrap_witness.
Print Assumptions Verif.Props_Conc.C11_long_lived_refuted.
Print Assumptions Verif.Props_Conc.C11_wrap_race_refuted.
Print Assumptions Verif.Props_Frames.C12_visitor_to_service.
Print Assumptions Verif.Props_Frames.C12_visitor_to_service_prefix.
Print Assumptions Verif.Props_First.C12_first_payload.
Print Assumptions Verif.Props_First.C12_first_http.
Print Assumptions Verif.Props_First.C12_first_tls.
Print Assumptions Verif.Props_First.C12_first_witness.
Print Assumptions Verif.Props_Frames.C13_service_to_visitor_partial.
Print Assumptions Verif.Props_Frames.C13_service_to_visitor_prefix_partial.
Print Assumptions Verif.Props_Clog.C13_hole_refuted.
Print Assumptions Verif.Props_Clog.C13_hole_witness.
Print Assumptions Verif.Props_Frames.C14_server_in_sync.
Print Assumptions Verif.Props_Frames.C14_client_in_sync.
Print Assumptions Verif.Props_Frames.C15_zero_frame_panics_refuted.
Print Assumptions Verif.Props_Frames.C15_only_zero_frames_partial.
Print Assumptions Verif.Props_Frames.C15_no_panic_without_timeout_partial.
Print Assumptions Verif.Props_Frames.C16_signals_in_sync_partial.
Print Assumptions Verif.Props_Frames.C16_close_in_sync.
Print Assumptions Verif.Props_Frames.C16_reconnect_refuted.
Print Assumptions Verif.Props_Frames.C17_routed_to_index.
Print Assumptions Verif.Props_Frames.C17_out_of_range.
Print Assumptions Verif.Props_Conc.C18_closed_once.
Print Assumptions Verif.Props_Conc.C18_first_reason.
Print Assumptions Verif.Props_Conc.C18_reason_kept.
Print Assumptions Verif.Props_Conc.C19_local_one.
Print Assumptions Verif.Props_Conc.C19_remote_none.
Print Assumptions Verif.Props_Conc.C19_failed_none.
Print Assumptions Verif.Props_Frames.C20_server_close.
Print Assumptions Verif.Props_Frames.C20_server_drains.
Print Assumptions Verif.Props_Frames.C20_client_close.
Print Assumptions Verif.Props_Frames.C20_client_keeps_tasks.
Print Assumptions Verif.Props_Frames.C21_dead_server.
Print Assumptions Verif.Props_Frames.C21_gives_up.
Print Assumptions Verif.Props_Conc.C22_least_loaded.
Print Assumptions Verif.Props_Conc.C22_assignment.
Print Assumptions Verif.Props_Conc.C22_sequential_partial.
Print Assumptions Verif.Props_Conc.C22_concurrent_refuted.
Print Assumptions Verif.Props_Conc.C23_exact_partial.
Print Assumptions Verif.Props_Conc.C23_upload_bypass_refuted.
Print Assumptions Verif.Props_Reg.C24_visitors_partial.
Print Assumptions Verif.Props_Reg.C24_one_owner.
Print Assumptions Verif.Props_Reg.C24_conflict_unchanged.
Print Assumptions Verif.Props_Reg.C24_conflict_refused.
Print Assumptions Verif.Props_Reg.C24_C25_stale_tunnel_refuted.
Print Assumptions Verif.Props_Reg.C24_tcp_refusal_refuted.
Print Assumptions Verif.Props_Reg.C25_no_leak_partial.
Print Assumptions Verif.Props_Reg.C25_free_again_partial.
Print Assumptions Verif.Props_Reg.C26_limit.
Print Assumptions Verif.Props_Reg.C26_limit_configured.
Print Assumptions Verif.Props_Reg.C26_below_limit_admitted.
Print Assumptions Verif.Props_Reg.C26_init_race_refuted.
Print Assumptions Verif.Props_Reg.C27_reload_accepted_partial.
Print Assumptions Verif.Props_Reg.C27_reload_refusals.
Print Assumptions Verif.Props_Reg.C27_full_pool_refuted.
Print Assumptions Verif.Props_Reg.C27_back_refuted.
Print Assumptions Verif.Props_Tcp.C28_ports_partition_partial.
Print Assumptions Verif.Props_Tcp.C28_no_stale_kept.
Print Assumptions Verif.Props_Tcp.C28_closing_returns.
Print Assumptions Verif.Props_Tcp.C28_opened.
Print Assumptions Verif.Props_Tcp.C28_stale_refuted.
Print Assumptions Verif.Props_Tcp.C28_port_change_refuted.
Print Assumptions Verif.Props_Checksum.C29_injective_partial.
Print Assumptions Verif.Props_Checksum.C29_deterministic.
Print Assumptions Verif.Props_Checksum.C29_parsed_own_index.
Print Assumptions Verif.Props_Checksum.C29_collisions.
Print Assumptions Verif.Props_Checksum.C29_same_checksum_skips.
Print Assumptions Verif.Props_Checksum.C29_reload_ignored_refuted.
Print Assumptions Verif.Props_Checksum.C29_grant_not_covered_refuted.
Print Assumptions Verif.Props_Ports.C30_range_parses_partial.
Print Assumptions Verif.Props_Ports.C30_pools.
Print Assumptions Verif.Props_Ports.C30_accepted.
Print Assumptions Verif.Props_Ports.C30_order_independent.
Print Assumptions Verif.Props_Ports.C30_zero_zero_refuted.
Print Assumptions Verif.Props_Http.C31_decided_early.
Print Assumptions Verif.Props_Http.C31_value_sound.
Print Assumptions Verif.Props_Http.C31_split_independent_partial.
Print Assumptions Verif.Props_Http.C31_undecided.
Print Assumptions Verif.Props_Http.C31_split_2048_refuted.
Print Assumptions Verif.Props_Http.C32_host_to_id.
Print Assumptions Verif.Props_Http.C32_id_unique.
Print Assumptions Verif.Props_Http.C32_http_routing.
Print Assumptions Verif.Props_Http.C32_never_empty.
Print Assumptions Verif.Props_Http.C33_safe.
Print Assumptions Verif.Props_Http.C33_complete_partial.
Print Assumptions Verif.Props_Http.C33_complete_first_read.
Print Assumptions Verif.Props_Http.C33_fragmented_refuted.
Print Assumptions Verif.Props_Http.C33_beyond_record_refuted.
Print Assumptions Verif.Props_HostRewrite.C34_rewrite_partial.
Print Assumptions Verif.Props_HostRewrite.C34_chunking_independent.
Print Assumptions Verif.Props_HostRewrite.C34_failing_destination.
Print Assumptions Verif.Props_HostRewrite.C34_held_back_forever_refuted.
Print Assumptions Verif.Props_HostRewrite.C34_reused_buffer_refuted.
Print Assumptions Verif.Props_Idle.C35_keeps_minimum.
Print Assumptions Verif.Props_Idle.C35_any_sequence.
Print Assumptions Verif.Props_Idle.C35_at_least_one.
Print Assumptions Verif.Props_Idle.C35_running_not_idle.
Print Assumptions Verif.Props_Idle.C35_idle_until_used.
Print Assumptions Verif.Props_Idle.C35_set_running_runs.
Print Assumptions Verif.Props_Idle.C35_connects_when_needed.
Print Assumptions Verif.Props_Idle.C35_reconnects_only_if_none_idle.
Print Assumptions Verif.Props_Idle.C35_running_put_to_wait_refuted.
Print Assumptions Verif.Props_Idle.C35_idle_while_running_refuted.
Print Assumptions Verif.Props_Idle.C36_at_most_one_left.
Print Assumptions Verif.Props_Idle.C36_all_wake_partial.
Print Assumptions Verif.Props_Idle.C36_can_return.
Print Assumptions Verif.Props_Idle.C36_lost_wakeup_refuted.
Print Assumptions Verif.Props_Idle.C36_lost_for_ever.
Print Assumptions Verif.Props_SyncMap.C37_linearizable.
Print Assumptions Verif.Props_SyncMap.C37_no_panic.
Print Assumptions Verif.Props_SyncMap.C37_no_deadlock.
Print Assumptions Verif.Props_SyncMap.C37_sequential.
Print Assumptions Verif.Props_SyncMap.C37_constructor_sequential.
Print Assumptions Verif.Props_SyncMap.C37_constructor_at_most_twice.
Print Assumptions Verif.Props_SyncMap.C37_constructor_refuted.
Print Assumptions Verif.Props_SyncMap.C37_constructor_twice.
Print Assumptions Verif.Props_Chunked.C38_all.
Print Assumptions Verif.Props_Chunked.C38_size_exact.
Print Assumptions Verif.Props_Chunked.C38_oversize_refused.
Print Assumptions Verif.Props_Chunked.C38_split_independent.
Print Assumptions Verif.Props_Chunked.C38_progress.
Print Assumptions Verif.Props_Chunked.C38_round_trip.
Print Assumptions Verif.Props_Chunked.C38_empty_size_is_end.
Print Assumptions Verif.Props_Pipe.C39_reads.
Print Assumptions Verif.Props_Pipe.C39_no_loss.
Print Assumptions Verif.Props_Pipe.C39_writes.
Print Assumptions Verif.Props_Pipe.C39_handover_completes.
Print Assumptions Verif.Props_Pipe.C39_meet.
Print Assumptions Verif.Props_Pipe.C39_close_releases.
Print Assumptions Verif.Props_Pipe.C39_stream.
Print Assumptions Verif.Props_Token.C40_accepted_only_if.
Print Assumptions Verif.Props_Token.C40_at_most_max_use.
Print Assumptions Verif.Props_Token.C40_unknown_never.
Print Assumptions Verif.Props_Token.C40_works.
Print Assumptions Verif.Props_Services.C41_exactly.
Print Assumptions Verif.Props_Services.C41_attached.
Print Assumptions Verif.Props_Services.C41_order.
Print Assumptions Verif.Props_Services.C41_constraints.
Print Assumptions Verif.Props_Services.C41_random_partial.
Print Assumptions Verif.Props_Services.C41_panic_only_without_url.
Print Assumptions Verif.Props_Services.C41_witness.
Print Assumptions Verif.Props_Services.C41_random_alias_refuted.
Print Assumptions Verif.Props_Services.C41_no_url_panics_refuted.
Print Assumptions Verif.Props_Services.C41_ipv6_without_port_refuted.
Print Assumptions Verif.Props_Auth.C42_table_admissible.
Print Assumptions Verif.Props_Auth.C42_good_tables_start.
Print Assumptions Verif.Props_Auth.C42_nil_entry_refuted.
Print Assumptions Verif.Props_Shutdown.C43_counters.
Print Assumptions Verif.Props_Shutdown.C43_condition.
Print Assumptions Verif.Props_Shutdown.C43_exit_sound_partial.
Print Assumptions Verif.Props_Shutdown.C43_exit_complete.
Print Assumptions Verif.Props_Shutdown.C43_bounded.
Print Assumptions Verif.Props_Shutdown.C43_few_late_accepts.
Print Assumptions Verif.Props_Shutdown.C43_witness.
Print Assumptions Verif.Props_Shutdown.C43_exit_early_refuted.
Print Assumptions Verif.Props_Shutdown.C43_gives_up_refuted.
Print Assumptions Verif.Props_Block.C44_get_returns_a_set_value.
Print Assumptions Verif.Props_Block.C44_single_value.
Print Assumptions Verif.Props_Block.C44_no_panic_partial.
Print Assumptions Verif.Props_Block.C44_panic_refuted.
Print Assumptions Verif.Props_Block.C44_get_can_return.
Print Assumptions Verif.Props_Stdio.C45_round_trip_partial.
Print Assumptions Verif.Props_Stdio.C45_large_refused.
Print Assumptions Verif.Props_Stdio.C45_split_length_refuted.
Print Assumptions Verif.Props_Stdio.C46_write_frames.
Print Assumptions Verif.Props_Stdio.C46_connection.
Print Assumptions Verif.Props_Stdio.C46_count_refuted.
Print Assumptions Verif.Props_Stdio.C46_after_close_refuted.
Print Assumptions Verif.Props_Frames.C47_frame_before_ready_refuted.
Print Assumptions Verif.Props_Ready.C47_only_before_ready_partial.
Print Assumptions Verif.Props_Ready.C47_after_ready_partial.
Print Assumptions Verif.Props_Ready.C47_cause_partial.
Print Assumptions Verif.Props_Ready.C47_witness.
Print Assumptions Verif.Props_Services.C48_reload_noticed_partial.
Print Assumptions Verif.Props_Services.C48_other_changes_noticed.
Print Assumptions Verif.Props_Services.C48_reload_ignored_refuted.
Print Assumptions Verif.Props_Services.C48_reload_ignored_witness.
Print Assumptions Verif.Props_Dispatch.C49_right_service_partial.
Print Assumptions Verif.Props_Dispatch.C49_settled.
Print Assumptions Verif.Props_Dispatch.C49_witness.
Print Assumptions Verif.Props_Dispatch.C49_misrouted_refuted.
Print Assumptions Verif.Props_Dispatch.C49_before_ready_refuted.
Print Assumptions Verif.Props_Dispatch.C50_reload_cuts_all_refuted.
Print Assumptions Verif.Props_Dispatch.C50_witness.
Print Assumptions Verif.Props_Handshake.C51_oversize_refuted.
Print Assumptions Verif.Props_Wire.C51_sent_is_cut.
Print Assumptions Verif.Props_Wire.C51_oversize_never_admitted.
Print Assumptions Verif.Props_Wire.C51_witness.
Print Assumptions Verif.Props_Reload.C52_return_means_answered.
Print Assumptions Verif.Props_Reload.C52_return_means_written.
Print Assumptions Verif.Props_Reload.C52_panic_only_between_write_and_add.
Print Assumptions Verif.Props_Reload.C52_finishes_partial.
Print Assumptions Verif.Props_Reload.C52_finishes_witness.
Print Assumptions Verif.Props_Reload.C52_dead_tunnel_refuted.
Print Assumptions Verif.Props_Reload.C52_early_answer_refuted.
Print Assumptions Verif.Props_Reload.C52_stray_refuted.
Print Assumptions Verif.Props_Wait.C53_timeout_honest.
Print Assumptions Verif.Props_Wait.C53_nil_means_was_ready_partial.
Print Assumptions Verif.Props_Wait.C53_returns_once.
Print Assumptions Verif.Props_Wait.C53_not_asleep_when_ready.
Print Assumptions Verif.Props_Wait.C53_awake_returns.
Print Assumptions Verif.Props_Wait.C53_witness.
Print Assumptions Verif.Props_Wait.C53_other_timer_refuted.
Print Assumptions Verif.Props_Wait.C53_gone_again_refuted.
Print Assumptions Verif.Props_Wait.C53_timeout_lost_refuted.
Print Assumptions Verif.Props_ClientClose.C54_ready_tunnels_closed.
Print Assumptions Verif.Props_ClientClose.C54_silent_after_close.
Print Assumptions Verif.Props_ClientClose.C54_shutdown_gentle.
Print Assumptions Verif.Props_ClientClose.C54_shutdown_tells.
Print Assumptions Verif.Props_ClientClose.C54_shutdown_complete.
Print Assumptions Verif.Props_ClientClose.C54_one_more_dial.
Print Assumptions Verif.Props_ClientClose.C54_comes_to_rest.
Print Assumptions Verif.Props_ClientClose.C54_no_loop_is_stuck.
Print Assumptions Verif.Props_ClientClose.C54_witness.
Print Assumptions Verif.Props_ClientClose.C54_shutdown_witness.
Print Assumptions Verif.Props_ClientClose.C54_leak_refuted.
Print Assumptions Verif.Props_ClientClose.C54_shutdown_hangs_refuted.
Print Assumptions Verif.Props_Peer.C55_in_order.
Print Assumptions Verif.Props_Peer.C55_complete_partial.
Print Assumptions Verif.Props_Peer.C55_first_is_offer.
Print Assumptions Verif.Props_Peer.C55_refused_blocks.
Print Assumptions Verif.Props_Peer.C55_too_long_blocks.
Print Assumptions Verif.Props_Peer.C55_refused_candidate_refuted.
Print Assumptions Verif.Props_Peer.C55_witness.
Print Assumptions Verif.Props_PeerPool.C56_map_bounded.
Print Assumptions Verif.Props_PeerPool.C56_bounded_partial.
Print Assumptions Verif.Props_PeerPool.C56_data_reaches_partial.
Print Assumptions Verif.Props_PeerPool.C56_close_closes_partial.
Print Assumptions Verif.Props_PeerPool.C56_close_refuted.
Print Assumptions Verif.Props_PeerPool.C56_lock_released_partial.
Print Assumptions Verif.Props_PeerPool.C56_stuck_for_ever.
Print Assumptions Verif.Props_PeerPool.C56_deadlock_refuted.
Print Assumptions Verif.Props_PeerPool.C56_limit_refuted.
Print Assumptions Verif.Props_PeerPool.C56_witness.
Print Assumptions Verif.Props_Black.C57_taken_over.
Print Assumptions Verif.Props_Black.C57_kept_out.
Print Assumptions Verif.Props_Black.C57_forgotten.
Print Assumptions Verif.Props_Black.C57_minute_partial.
Print Assumptions Verif.Props_Black.C57_witness.
Print Assumptions Verif.Props_Black.C57_too_soon_refuted.
Print Assumptions Verif.Props_Flags.C58_accepted_exactly.
Print Assumptions Verif.Props_Flags.C58_values.
Print Assumptions Verif.Props_Flags.C58_command_line_wins.
Print Assumptions Verif.Props_Flags.C58_file_next.
Print Assumptions Verif.Props_Flags.C58_default_last.
Print Assumptions Verif.Props_Flags.C58_services.
Print Assumptions Verif.Props_Flags.C58_server_refuses_bad_file.
Print Assumptions Verif.Props_Flags.C58_schemas.
Print Assumptions Verif.Props_Flags.C58_witness.
Print Assumptions Verif.Props_Flags.C58_witness_command.
Print Assumptions Verif.Props_Flags.C58_client_forgets_command_line_refuted.
Print Assumptions Verif.Props_Flags.C58_zero_refuted.
Print Assumptions Verif.Props_Flags.C58_truncated_refuted.
Print Assumptions Verif.Props_Flags.C58_operand_refuted.
Print Assumptions Verif.Props_Flags.C58_garbage_refuted.
Print Assumptions Verif.Props_Flags.C58_bad_file_witness.
Print Assumptions Verif.Props_Reopt.C59_reload_exactly.
Print Assumptions Verif.Props_Reopt.C59_change_refused.
Print Assumptions Verif.Props_Reopt.C59_change_witness.
Print Assumptions Verif.Props_Reopt.C59_witness.
Print Assumptions Verif.Props_Reopt.C59_remote_refuted.
Print Assumptions Verif.Props_Reopt.C59_secret_refuted.
Print Assumptions Verif.Props_Reopt.C59_numbers_refuted.
Print Assumptions Verif.Props_WebConf.C60_next_start_partial.
Print Assumptions Verif.Props_WebConf.C60_credentials_partial.
Print Assumptions Verif.Props_WebConf.C60_request_cannot_change.
Print Assumptions Verif.Props_WebConf.C60_other_file_refuted.
Print Assumptions Verif.Props_WebConf.C60_crash_refuted.
Print Assumptions Verif.Props_WebConf.C60_witness.
Print Assumptions Verif.Props_WebConf.C60_other_file_witness_refuted.
Print Assumptions Verif.Props_WebConf.C60_hypotheses.
Print Assumptions Verif.Props_WebConf.C60_request_changes.
Print Assumptions Verif.Props_WebAuth.C61_authorised_partial.
Print Assumptions Verif.Props_WebAuth.C61_needs_secret_partial.
Print Assumptions Verif.Props_WebAuth.C61_login_exactly.
Print Assumptions Verif.Props_WebAuth.C61_token_works.
Print Assumptions Verif.Props_WebAuth.C61_no_empty_login.
Print Assumptions Verif.Props_WebAuth.C61_pprof_refuted.
Print Assumptions Verif.Props_WebAuth.C61_change_refuted.
Print Assumptions Verif.Props_WebAuth.C61_codec.
Print Assumptions Verif.Props_WebAuth.C61_witness.
Print Assumptions Verif.Props_WebAuth.C61_first_start.
Print Assumptions Verif.Props_Log.C63_only_the_oldest_goes_partial.
Print Assumptions Verif.Props_Log.C63_bounded_partial.
Print Assumptions Verif.Props_Log.C63_current_kept_partial.
Print Assumptions Verif.Props_Log.C63_full_is_full_partial.
Print Assumptions Verif.Props_Log.C63_ten_rotations_refuted.
Print Assumptions Verif.Props_Log.C63_restart_refuted.
Print Assumptions Verif.Props_Log.C63_foreign_refuted.
Print Assumptions Verif.Props_Log.C63_witness.
Print Assumptions Verif.Props_Manager.C64_kept_running.
Print Assumptions Verif.Props_Manager.C64_restarted.
Print Assumptions Verif.Props_Manager.C64_told_only_when_leaving.
Print Assumptions Verif.Props_Manager.C64_all_told.
Print Assumptions Verif.Props_Manager.C64_none_left_partial.
Print Assumptions Verif.Props_Manager.C64_orphan_refuted.
Print Assumptions Verif.Props_Manager.C64_witness.
Print Assumptions Verif.Props_Manager.C65_no_gap_partial.
Print Assumptions Verif.Props_Manager.C65_goes_on_partial.
Print Assumptions Verif.Props_Manager.C65_two_kinds_refuted.
Print Assumptions Verif.Props_Manager.C65_failed_start_refuted.
Print Assumptions Verif.Props_Manager.C65_twice_refuted.
Print Assumptions Verif.Props_Manager.C65_witness.
Print Assumptions Verif.Props_Launch.C66_collected.
Print Assumptions Verif.Props_Launch.C66_once.
Print Assumptions Verif.Props_Launch.C66_started.
Print Assumptions Verif.Props_Launch.C66_witness.
Print Assumptions Verif.Props_Launch.C66_given_file.
Print Assumptions Verif.Props_Launch.C67_kinds_partial.
Print Assumptions Verif.Props_Launch.C67_commands.
Print Assumptions Verif.Props_Launch.C67_witness.
Print Assumptions Verif.Props_Launch.C67_example_server_refuted.
Print Assumptions Verif.Props_Launch.C67_one_bad_file_refuted.
Print Assumptions Verif.Props_Launch.C67_connect_refuted.
Print Assumptions Verif.Props_Rand.C62_alphabet.
Print Assumptions Verif.Props_Rand.C62_shape.
Print Assumptions Verif.Props_Rand.C62_total.
Print Assumptions Verif.Props_Rand.C62_no_bias.
Print Assumptions Verif.Props_Rand.C62_port.
Print Assumptions Verif.Props_Rand.C62_requests.
Print Assumptions Verif.Props_Rand.C62_witness.
Print Assumptions Verif.Props_Rand.C62_guessable_refuted.
Print Assumptions Verif.Props_Rand.C62_same_second_refuted.
Print Assumptions Verif.Props_Forward.C68_in_range.
Print Assumptions Verif.Props_Forward.C68_in_turn.
Print Assumptions Verif.Props_Forward.C68_at_once_refuted.
Print Assumptions Verif.Props_Forward.C68_bytes_in_order.
Print Assumptions Verif.Props_Forward.C68_all_bytes.
Print Assumptions Verif.Props_Forward.C68_offer_partial.
Print Assumptions Verif.Props_Forward.C68_long_offer_refuted.
Print Assumptions Verif.Props_Forward.C68_answer.
Print Assumptions Verif.Props_Forward.C68_only_sent.
Print Assumptions Verif.Props_Forward.C68_reported.
Print Assumptions Verif.Props_Forward.C68_cut_off_refuted.
Print Assumptions Verif.Props_Forward.C68_witness.
Print Assumptions Verif.Props_Start.C69_start_iff.
Print Assumptions Verif.Props_Start.C69_listening.
Print Assumptions Verif.Props_Start.C69_mode.
Print Assumptions Verif.Props_Start.C69_tls_version.
Print Assumptions Verif.Props_Start.C69_close_partial.
Print Assumptions Verif.Props_Start.C69_tunnels_closed_partial.
Print Assumptions Verif.Props_Start.C69_witness.
Print Assumptions Verif.Props_Start.C69_close_witness.
Print Assumptions Verif.Props_Start.C69_quic_stays_refuted.
Print Assumptions Verif.Props_Start.C69_tls_ignored_refuted.
Print Assumptions Verif.Props_Start.C69_failed_start_refuted.
Print Assumptions Verif.Props_Start.C69_late_tunnel_refuted.
Print Assumptions Verif.Props_Op.C70_round_trip.
Print Assumptions Verif.Props_Op.C70_manager_round_trip.
Print Assumptions Verif.Props_Op.C70_from_go.
Print Assumptions Verif.Props_Op.C70_bad_length_refused.
Print Assumptions Verif.Props_Op.C70_locked_writers.
Print Assumptions Verif.Props_Op.C70_all_sent.
Print Assumptions Verif.Props_Op.C70_manager_one_at_a_time_partial.
Print Assumptions Verif.Props_Op.C70_timer_between_partial.
Print Assumptions Verif.Props_Op.C70_witness.
Print Assumptions Verif.Props_Op.C70_too_large_refuted.
Print Assumptions Verif.Props_Op.C70_manager_interleaved_refuted.
Print Assumptions Verif.Props_Op.C70_timer_inside_refuted.
Print Assumptions Verif.Props_Op.C70_timer_misread_refuted.
Print Assumptions Verif.Props_Route.C71_reaches_what_it_names_partial.
Print Assumptions Verif.Props_Route.C71_prefix.
Print Assumptions Verif.Props_Route.C71_port.
Print Assumptions Verif.Props_Route.C71_nothing_else.
Print Assumptions Verif.Props_Route.C71_witness.
Print Assumptions Verif.Props_Route.C71_other_characters_refuted.
Print Assumptions Verif.Props_Route.C71_no_default_refuted.
Print Assumptions Verif.Props_Route.C71_unknown_ports_refuted.
Print Assumptions Verif.Props_Route.C71_thread_ignores_label_refuted.
Print Assumptions Verif.Props_PeerIdle.C72_only_when_idle.
Print Assumptions Verif.Props_PeerIdle.C72_ends_when_idle.
Print Assumptions Verif.Props_PeerIdle.C72_open_channel_keeps.
Print Assumptions Verif.Props_PeerIdle.C72_timeout.
Print Assumptions Verif.Props_PeerIdle.C72_witness.
Print Assumptions Verif.Props_PeerIdle.C72_long_timeout_refuted.
Print Assumptions Verif.Props_Answer.C73_answered_partial.
Print Assumptions Verif.Props_Answer.C73_broken_prefix_partial.
Print Assumptions Verif.Props_Answer.C73_end_to_end_partial.
Print Assumptions Verif.Props_Answer.C73_witness.
Print Assumptions Verif.Props_Answer.C73_long_refuted.
Print Assumptions Verif.Props_Answer.C73_process_passes_on.
Print Assumptions Verif.Props_Answer.C73_process_refuted.
Print Assumptions Verif.Props_Answer.C73_process_offer_refuted.
Print Assumptions Verif.Props_Answer.C73_process_visitor_refuted.
Print Assumptions Verif.Props_Buf.C74_own_bytes_partial.
Print Assumptions Verif.Props_Buf.C74_closed_task_refuted.
Print Assumptions Verif.Props_Buf.C74_witness.
Print Assumptions Verif.Props_Chan.C75_idle_partial.
Print Assumptions Verif.Props_Chan.C75_idle_ends.
Print Assumptions Verif.Props_Chan.C75_messages_partial.
Print Assumptions Verif.Props_Chan.C75_messages_prefix_partial.
Print Assumptions Verif.Props_Chan.C75_witness.
Print Assumptions Verif.Props_Chan.C75_idle_refuted.
Print Assumptions Verif.Props_Chan.C75_never_opened_refuted.
Print Assumptions Verif.Props_Chan.C75_failed_dial_refuted.
Print Assumptions Verif.Props_Worker.C76_ready.
Print Assumptions Verif.Props_Worker.C76_server_ready.
Print Assumptions Verif.Props_Worker.C76_failed_start.
Print Assumptions Verif.Props_Worker.C76_done.
Print Assumptions Verif.Props_Worker.C76_exit.
Print Assumptions Verif.Props_Worker.C76_cut_off.
Print Assumptions Verif.Props_Worker.C76_forced.
Print Assumptions Verif.Props_Worker.C76_requests_kept.
Print Assumptions Verif.Props_Worker.C76_done_asked.
Print Assumptions Verif.Props_Worker.C76_honoured.
Print Assumptions Verif.Props_Worker.C76_client_reloads.
Print Assumptions Verif.Props_Worker.C76_server_reload_refuted.
Print Assumptions Verif.Props_Worker.C76_no_hurry_refuted.
Print Assumptions Verif.Props_Worker.C76_signal_lost_refuted.
Print Assumptions Verif.Props_Worker.C76_early_signal_refuted.
Print Assumptions Verif.Props_Worker.C76_late_client_refuted.
Print Assumptions Verif.Props_Worker.C76_witness.
Print Assumptions Verif.Props_Command.C77_first.
Print Assumptions Verif.Props_Command.C77_once.
Print Assumptions Verif.Props_Command.C77_acts.
Print Assumptions Verif.Props_Command.C77_nobody.
Print Assumptions Verif.Props_Command.C77_stop_lost_refuted.
Print Assumptions Verif.Props_Command.C77_witness.
Print Assumptions Verif.Props_Dialer.C78_address_partial.
Print Assumptions Verif.Props_Dialer.C78_ipv6_refuted.
Print Assumptions Verif.Props_Dialer.C78_ipv6_witness.
Print Assumptions Verif.Props_Dialer.C78_way.
Print Assumptions Verif.Props_Dialer.C78_never_plain.
Print Assumptions Verif.Props_Dialer.C78_certificate.
Print Assumptions Verif.Props_Dialer.C78_accepted.
Print Assumptions Verif.Props_Dialer.C78_unknown_scheme_refuted.
Print Assumptions Verif.Props_Dialer.C78_every_host.
Print Assumptions Verif.Props_Dialer.C78_same_host_refuted.
Print Assumptions Verif.Props_Dialer.C78_connections.
Print Assumptions Verif.Props_Dialer.C78_witness.
Print Assumptions Verif.Props_Reconn.C79_keeps_trying_partial.
Print Assumptions Verif.Props_Reconn.C79_one_at_a_time.
Print Assumptions Verif.Props_Reconn.C79_delay.
Print Assumptions Verif.Props_Reconn.C79_after_close.
Print Assumptions Verif.Props_Reconn.C79_ends.
Print Assumptions Verif.Props_Reconn.C79_quic_refuted.
Print Assumptions Verif.Props_Reconn.C79_quic_witness.
Print Assumptions Verif.Props_Reconn.C79_stuck_for_ever.
Print Assumptions Verif.Props_Reconn.C79_late_task_refuted.
Print Assumptions Verif.Props_Reconn.C79_second_server_refuted.
Print Assumptions Verif.Props_Reconn.C79_address_refuted.
Print Assumptions Verif.Props_Reconn.C79_address_witness.
Print Assumptions Verif.Props_Reconn.C79_third_visitor.
Print Assumptions Verif.Props_Reconn.C79_third_visitor_witness.
Print Assumptions Verif.Props_Reconn.C79_witness.
Print Assumptions Verif.Props_Accept.C80_goes_on_partial.
Print Assumptions Verif.Props_Accept.C80_too_many_files_refuted.
Print Assumptions Verif.Props_Accept.C80_too_many_files_witness.
Print Assumptions Verif.Props_Accept.C80_delay.
Print Assumptions Verif.Props_Accept.C80_closing.
Print Assumptions Verif.Props_Accept.C80_quic_partial.
Print Assumptions Verif.Props_Accept.C80_quic_refuted.
Print Assumptions Verif.Props_Accept.C80_bbr_refuted.
Print Assumptions Verif.Props_Accept.C80_witness.
Print Assumptions Verif.Props_Bbr.C81_read_prefix.
Print Assumptions Verif.Props_Bbr.C81_all_readable.
Print Assumptions Verif.Props_Bbr.C81_last_bytes_refuted.
Print Assumptions Verif.Props_Bbr.C81_eof_missing.
Print Assumptions Verif.Props_Bbr.C81_no_timeout_refuted.
Print Assumptions Verif.Props_Bbr.C81_deadline_refuted.
Print Assumptions Verif.Props_Bbr.C81_deadline_witness.
Print Assumptions Verif.Props_Bbr.C81_write_partial.
Print Assumptions Verif.Props_Bbr.C81_two_writes_refuted.
Print Assumptions Verif.Props_Bbr.C81_refused_write_refuted.
Print Assumptions Verif.Props_Bbr.C81_witness.
Print Assumptions Verif.Props_Status.C82_ok_recent.
Print Assumptions Verif.Props_Status.C82_probes_apart.
Print Assumptions Verif.Props_Status.C82_one_answer.
Print Assumptions Verif.Props_Status.C82_503.
Print Assumptions Verif.Props_Status.C82_recovers.
Print Assumptions Verif.Props_Status.C82_unused_id.
Print Assumptions Verif.Props_Status.C82_no_check_no_credentials.
Print Assumptions Verif.Props_Status.C82_only_made.
Print Assumptions Verif.Props_Status.C82_mixed_refuted.
Print Assumptions Verif.Props_Status.C82_code_refuted.
Print Assumptions Verif.Props_Status.C82_hang_refuted.
Print Assumptions Verif.Props_Status.C82_witness.
Print Assumptions Verif.Props_WebList.C83_pool_partial.
Print Assumptions Verif.Props_WebList.C83_external_partial.
Print Assumptions Verif.Props_WebList.C83_each_once.
Print Assumptions Verif.Props_WebList.C83_ipv6_refuted.
Print Assumptions Verif.Props_WebList.C83_quic_refuted.
Print Assumptions Verif.Props_WebList.C83_list_witness.
Print Assumptions Verif.Props_WebList.C83_ipv6_witness.
Print Assumptions Verif.Props_WebList.C83_buttons_partial.
Print Assumptions Verif.Props_WebList.C83_kill_refuted.
Print Assumptions Verif.Props_WebList.C83_save_server.
Print Assumptions Verif.Props_WebList.C83_save_client_refuted.
Print Assumptions Verif.Props_Send.C84_in_order.
Print Assumptions Verif.Props_Send.C84_answers.
Print Assumptions Verif.Props_Send.C84_can_send.
Print Assumptions Verif.Props_Send.C84_wakes_partial.
Print Assumptions Verif.Props_Send.C84_close_wakes.
Print Assumptions Verif.Props_Send.C84_lost_wakeup_refuted.
Print Assumptions Verif.Props_Send.C84_close_lost_refuted.
Print Assumptions Verif.Props_Send.C84_freed_refuted.
Print Assumptions Verif.Props_Send.C84_freed_only_closed.
Print Assumptions Verif.Props_Send.C84_only_with_room.
Print Assumptions Verif.Props_Send.C84_witness.
Print Assumptions Verif.Props_Connect.C85_in_order.
Print Assumptions Verif.Props_Connect.C85_requests.
Print Assumptions Verif.Props_Connect.C85_every_line_partial.
Print Assumptions Verif.Props_Connect.C85_invalid_line_refuted.
Print Assumptions Verif.Props_Connect.C85_queue.
Print Assumptions Verif.Props_Connect.C85_says.
Print Assumptions Verif.Props_Connect.C85_error_status_refuted.
Print Assumptions Verif.Props_Connect.C85_no_config.
Print Assumptions Verif.Props_Connect.C85_config_checked.
Print Assumptions Verif.Props_Connect.C85_no_offer_refuted.
Print Assumptions Verif.Props_Connect.C85_never_ready_refuted.
Print Assumptions Verif.Props_Connect.C85_ended_by_manager_refuted.
Print Assumptions Verif.Props_Connect.C85_stop_bytes.
Print Assumptions Verif.Props_Connect.C85_not_before.
Print Assumptions Verif.Props_Connect.C85_witness.
Print Assumptions Verif.Props_Thread.C86_in_turn_partial.
Print Assumptions Verif.Props_Thread.C86_all_the_same_refuted.
Print Assumptions Verif.Props_Thread.C86_null_refuted.
Print Assumptions Verif.Props_Thread.C86_jammed_for_ever_refuted.
Print Assumptions Verif.Props_Thread.C86_jam_refuted.
Print Assumptions Verif.Props_Thread.C86_broken_visitor_refuted.
Print Assumptions Verif.Props_Thread.C86_in_order.
Print Assumptions Verif.Props_Thread.C86_goes_on_partial.
Print Assumptions Verif.Props_Thread.C86_witness.
Print Assumptions Verif.Props_Thread.C86_witness_pool.
Print Assumptions Verif.Props_Clog.C87_pieces.
Print Assumptions Verif.Props_Clog.C87_prefix_partial.
Print Assumptions Verif.Props_Clog.C87_held_up_refuted.
Print Assumptions Verif.Props_Clog.C87_for_ever_refuted.
Print Assumptions Verif.Props_Clog.C87_held_up_witness.
Print Assumptions Verif.Props_Clog.C87_goes_on.
Print Assumptions Verif.Props_Clog.C87_all_delivered.
Print Assumptions Verif.Props_KeepAlive.C88_second_request_refuted.
Print Assumptions Verif.Props_KeepAlive.C88_spelling_refuted.
Print Assumptions Verif.Props_KeepAlive.C88_second_request_witness.
Print Assumptions Verif.Props_KeepAlive.C88_spelling_witness.
Print Assumptions Verif.Props_KeepAlive.C88_rewrite_refuted.
Print Assumptions Verif.Props_KeepAlive.C88_rewrite_witness.
Print Assumptions Verif.Props_WebStart.C89_refused_exactly.
Print Assumptions Verif.Props_WebStart.C89_as_configured_partial.
Print Assumptions Verif.Props_WebStart.C89_never_plain_partial.
Print Assumptions Verif.Props_WebStart.C89_plain_refuted.
Print Assumptions Verif.Props_WebStart.C89_other_address_refuted.
Print Assumptions Verif.Props_WebStart.C89_ipv6_refuted.
Print Assumptions Verif.Props_WebStart.C89_silent_refuted.
Print Assumptions Verif.Props_WebStart.C89_witness.
Print Assumptions Verif.Props_PeerLife.C90_deleted_once.
Print Assumptions Verif.Props_PeerLife.C90_own_answer.
Print Assumptions Verif.Props_PeerLife.C90_waits_for_libwebrtc_partial.
Print Assumptions Verif.Props_PeerLife.C90_closing_frees_partial.
Print Assumptions Verif.Props_PeerLife.C90_no_harm_partial.
Print Assumptions Verif.Props_PeerLife.C90_two_requests_refuted.
Print Assumptions Verif.Props_PeerLife.C90_waits_for_ever_refuted.
Print Assumptions Verif.Props_PeerLife.C90_never_freed_refuted.
Print Assumptions Verif.Props_PeerLife.C90_freed_refuted.
Print Assumptions Verif.Props_PeerLife.C90_null_refuted.
Print Assumptions Verif.Props_PeerLife.C90_foreign_refuted.
Print Assumptions Verif.Props_PeerLife.C90_witness.
Print Assumptions Verif.Props_Form.C91_keeps_partial.
Print Assumptions Verif.Props_Form.C91_keeps_running_partial.
Print Assumptions Verif.Props_Form.C91_duration_exact.
Print Assumptions Verif.Props_Form.C91_fraction_refuted.
Print Assumptions Verif.Props_Form.C91_lost_refuted.
Print Assumptions Verif.Props_Form.C91_remotes_exact.
Print Assumptions Verif.Props_Form.C91_remotes_refuted.
Print Assumptions Verif.Props_Form.C91_users_exact_partial.
Print Assumptions Verif.Props_Form.C91_users_refuted.
Print Assumptions Verif.Props_Form.C91_services_exact_partial.
Print Assumptions Verif.Props_Form.C91_witness.
Print Assumptions Verif.Props_Form.C91_values_witness.
Print Assumptions Verif.Props_Dur.C92_read_back.
Print Assumptions Verif.Props_Dur.C92_distinct.
Print Assumptions Verif.Props_Dur.C92_in_range.
Print Assumptions Verif.Props_Dur.C92_witness.
Print Assumptions Verif.Props_Platform.C93_admitted_iff.
Print Assumptions Verif.Props_Platform.C93_asked_partial.
Print Assumptions Verif.Props_Platform.C93_tunnel.
Print Assumptions Verif.Props_Platform.C93_only_granted.
Print Assumptions Verif.Props_Platform.C93_asked_refuted.
Print Assumptions Verif.Props_Platform.C93_outage_refuted.
Print Assumptions Verif.Props_Platform.C93_null_refuted.
Print Assumptions Verif.Props_Platform.C93_withdrawn_refuted.
Print Assumptions Verif.Props_Platform.C93_witness.
Print Assumptions Verif.Props_Platform.C93_past_witness.
Print Assumptions Verif.Props_Platform.C93_withdrawn_witness.
Print Assumptions Verif.Props_Deadline.C94_first_read_in_time_partial.
Print Assumptions Verif.Props_Deadline.C94_not_early_partial.
Print Assumptions Verif.Props_Deadline.C94_abort_partial.
Print Assumptions Verif.Props_Deadline.C94_result.
Print Assumptions Verif.Props_Deadline.C94_only_first_read_refuted.
Print Assumptions Verif.Props_Deadline.C94_half_request_refuted.
Print Assumptions Verif.Props_Deadline.C94_early_refuted.
Print Assumptions Verif.Props_Deadline.C94_cleared_refuted.
Print Assumptions Verif.Props_Deadline.C94_abort_deadlock_refuted.
Print Assumptions Verif.Props_Deadline.C94_witness.
Print Assumptions Verif.Props_Stop.C95_shutdown_safe.
Print Assumptions Verif.Props_Stop.C95_handed_over.
Print Assumptions Verif.Props_Stop.C95_not_held_up.
Print Assumptions Verif.Props_Stop.C95_close_partial.
Print Assumptions Verif.Props_Stop.C95_close_crash_refuted.
Print Assumptions Verif.Props_Stop.C95_after_close_refuted.
Print Assumptions Verif.Props_Stop.C95_close_exact_refuted.
Print Assumptions Verif.Props_Stop.C95_witness.
Print Assumptions Verif.Props_Qobj.C96_account.
Print Assumptions Verif.Props_Qobj.C96_clean_partial.
Print Assumptions Verif.Props_Qobj.C96_failed_dial_refuted.
Print Assumptions Verif.Props_Qobj.C96_freed_once.
Print Assumptions Verif.Props_Qobj.C96_write_after_close_refuted.
Print Assumptions Verif.Props_Qobj.C96_in_flight_refuted.
Print Assumptions Verif.Props_Qobj.C96_safe_partial.
Print Assumptions Verif.Props_Qobj.C96_third_stream_refuted.
Print Assumptions Verif.Props_Qobj.C96_two_streams_partial.
Print Assumptions Verif.Props_Qobj.C96_witness.
Print Assumptions Verif.Props_WebSaves.C97_last_change_partial.
Print Assumptions Verif.Props_WebSaves.C97_credentials_partial.
Print Assumptions Verif.Props_WebSaves.C97_page_undoes_refuted.
Print Assumptions Verif.Props_WebSaves.C97_second_save_refuted.
Print Assumptions Verif.Props_WebSaves.C97_alone_partial.
Print Assumptions Verif.Props_WebSaves.C97_overlap_refuted.
Print Assumptions Verif.Props_WebSaves.C97_window_refuted.
Print Assumptions Verif.Props_WebSaves.C97_witness.
Print Assumptions Verif.Props_PageRules.C98_address.
Print Assumptions Verif.Props_PageRules.C98_accepts_partial.
Print Assumptions Verif.Props_PageRules.C98_address_refuted.
Print Assumptions Verif.Props_PageRules.C98_forward.
Print Assumptions Verif.Props_PageRules.C98_forward_refuted.
Print Assumptions Verif.Props_PageRules.C98_refuses.
Print Assumptions Verif.Props_PageRules.C98_range.
Print Assumptions Verif.Props_PageRules.C98_range_refuted.
Print Assumptions Verif.Props_PageTimes.C98_time_accepts.
Print Assumptions Verif.Props_PageTimes.C98_time.
Print Assumptions Verif.Props_PageTimes.C98_time_refuted.
Print Assumptions Verif.Props_PageTimes.C98_time_witness.
Print Assumptions Verif.Props_PageRules.C98_witness.
Print Assumptions Verif.Props_Keep.C99_stays_up_partial.
Print Assumptions Verif.Props_Keep.C99_unidirectional_partial.
Print Assumptions Verif.Props_Keep.C99_quic_refuted.
Print Assumptions Verif.Props_Keep.C99_quic_any_refuted.
Print Assumptions Verif.Props_Keep.C99_timeouts_refuted.
Print Assumptions Verif.Props_Keep.C99_no_pings_refuted.
Print Assumptions Verif.Props_Keep.C99_upload_refuted.
Print Assumptions Verif.Props_Keep.C99_busy_refuted.
Print Assumptions Verif.Props_Keep.C99_busy_rest_refuted.
Print Assumptions Verif.Props_Keep.C99_never_busy.
Print Assumptions Verif.Props_Keep.C99_witness.
Print Assumptions Verif.Props_Half.C100_prefix.
Print Assumptions Verif.Props_Half.C100_settles.
Print Assumptions Verif.Props_Half.C100_visitor_first_partial.
Print Assumptions Verif.Props_Half.C100_service_first_partial.
Print Assumptions Verif.Props_Half.C100_half_close_refuted.
Print Assumptions Verif.Props_Half.C100_in_flight_refuted.
Print Assumptions Verif.Props_Half.C100_reset_refuted.
Print Assumptions Verif.Props_Half.C100_witness.
Print Assumptions Verif.Props_Leave.C101_bounded.
Print Assumptions Verif.Props_Leave.C101_all_closed.
Print Assumptions Verif.Props_Leave.C101_goes_on.
Print Assumptions Verif.Props_Leave.C101_goes_on_partial.
Print Assumptions Verif.Props_Leave.C101_stalled_refuted.
Print Assumptions Verif.Props_Leave.C101_meanwhile_refuted.
Print Assumptions Verif.Props_Leave.C101_first_refuted.
Print Assumptions Verif.Props_Leave.C101_untold_refuted.
Print Assumptions Verif.Props_Leave.C101_witness.
Print Assumptions Verif.Props_Torn.C102_whole_partial.
Print Assumptions Verif.Props_TornRead.C102_own_bytes_partial.
Print Assumptions Verif.Props_TornSvc.C102_services_own_bytes_partial.
Print Assumptions Verif.Props_TornRead.C102_in_time_partial.
Print Assumptions Verif.Props_Torn.C102_mixed_refuted.
Print Assumptions Verif.Props_Torn.C102_mixed_services_refuted.
Print Assumptions Verif.Props_Torn.C102_last_word_refuted.
Print Assumptions Verif.Props_TornRead.C102_torn_signal_refuted.
Print Assumptions Verif.Props_TornRead.C102_extended_refuted.
Print Assumptions Verif.Props_TornRead.C102_witness.
Print Assumptions Verif.Props_TornSvc.C102_services_witness.
Print Assumptions Verif.Props_Gone.C103_little_more_partial.
Print Assumptions Verif.Props_Gone.C103_loop_ends_partial.
Print Assumptions Verif.Props_Gone.C103_served_partial.
Print Assumptions Verif.Props_Gone.C103_goes_on_refuted.
Print Assumptions Verif.Props_Gone.C103_peer_decides_refuted.
Print Assumptions Verif.Props_Gone.C103_black_hole_refuted.
Print Assumptions Verif.Props_Gone.C103_witness.
Print Assumptions Verif.Props_Local.C104_exactly.
Print Assumptions Verif.Props_Local.C104_same_partial.
Print Assumptions Verif.Props_Local.C104_served_partial.
Print Assumptions Verif.Props_Local.C104_ipv6_refuted.
Print Assumptions Verif.Props_Local.C104_empty_port_refuted.
Print Assumptions Verif.Props_Local.C104_no_such_address_refuted.
Print Assumptions Verif.Props_Local.C104_left_open_refuted.
Print Assumptions Verif.Props_LocalTold.C104_not_told_refuted.
Print Assumptions Verif.Props_Local.C104_witness.
Print Assumptions Verif.Props_LocalTold.C104_not_told_witness.
Print Assumptions Verif.Props_Place.C105_limit.
Print Assumptions Verif.Props_Place.C105_two_minutes_partial.
Print Assumptions Verif.Props_Place.C105_all_taken_refuted.
Print Assumptions Verif.Props_Place.C105_never_refuted.
Print Assumptions Verif.Props_Place.C105_witness.
