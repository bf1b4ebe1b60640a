-Q theories Verif
theories/Base.v
theories/S_bits.v
theories/M_bits.v
theories/L_base.v
theories/L_bits.v
theories/P_bits.v
theories/S_annexb.v
theories/M_annexb.v
theories/L_annexb.v
theories/P_annexb.v
theories/S_nal.v
theories/M_nal.v
theories/L_nal.v
theories/P_nal.v
theories/M_sps.v
theories/S_sps.v
theories/L_sps.v
theories/S_spsrel.v
theories/L_spsdec.v
theories/P_sps.v
theories/S_rtp.v
theories/M_rtp.v
theories/L_rtp.v
theories/P_rtp.v
theories/GoStrings.v
theories/S_hls.v
theories/M_hls.v
theories/L_hls.v
theories/P_hls.v
theories/L_strings.v
theories/S_transport.v
theories/M_transport.v
theories/L_transport.v
theories/P_transport.v
theories/S_sdp.v
theories/M_sdp.v
theories/L_sdp.v
theories/P_sdp.v
theories/S_md5.v
theories/S_digest.v
theories/M_digest.v
theories/L_digest.v
theories/P_digest.v
theories/M_conn.v
theories/M_message.v
theories/S_message.v
theories/L_message.v
theories/P_message.v
theories/M_session.v
theories/S_session.v
theories/L_session.v
theories/S_crash.v
theories/L_frames.v
theories/L_crash.v
theories/P_frames.v
theories/P_crash.v
theories/L_flow.v
theories/P_session.v
theories/M_race.v
theories/S_race.v
theories/L_race.v
theories/P_race.v
theories/M_udp.v
theories/S_udp.v
theories/L_udp.v
theories/P_udp.v
theories/M_main.v
theories/S_main.v
theories/L_main.v
theories/P_main.v
theories/S_handshake.v
theories/L_handshake.v
theories/P_handshake.v
theories/S_media.v
theories/L_media.v
theories/P_media.v
theories/S_secret.v
theories/L_secret.v
theories/P_secret.v
theories/M_url.v
theories/M_dial.v
theories/S_url.v
theories/L_url.v
theories/P_dial.v
theories/L_playlist.v
theories/P_playlist.v
theories/S_lines.v
theories/L_lines.v
theories/P_lines.v
theories/T_repo.v
theories/S_m3u8.v
theories/L_m3u8.v
theories/P_m3u8.v
theories/S_auth.v
theories/L_auth.v
theories/P_auth.v
theories/M_bufio.v
theories/S_bufio.v
theories/L_bufio.v
theories/P_bufio.v
theories/M_share.v
theories/S_share.v
theories/L_share.v
theories/P_share.v
theories/S_serve.v
theories/L_serve.v
theories/P_serve.v
theories/M_prog.v
theories/S_prog.v
theories/P_prog.v
theories/S_order.v
theories/P_order.v
theories/S_refuse.v
theories/L_refuse.v
theories/P_refuse.v
theories/L_verbs.v
theories/P_heed.v
theories/L_pack.v
theories/P_pack.v
theories/M_log.v
theories/S_log.v
theories/L_log.v
theories/P_log.v
theories/M_access.v
theories/S_access.v
theories/L_access.v
theories/P_access.v
theories/M_hash.v
theories/S_hash.v
theories/L_hash.v
theories/P_hash.v
theories/M_among.v
theories/S_among.v
theories/L_among.v
theories/P_among.v
theories/S_frags.v
theories/L_frags.v
theories/P_frags.v
theories/S_interlaced.v
theories/L_interlaced.v
theories/P_interlaced.v
theories/S_badurl.v
theories/L_badurl.v
theories/P_badurl.v
theories/S_ask.v
theories/L_ask.v
theories/P_ask.v
theories/L_sprop.v
theories/P_sprop.v
theories/M_app.v
theories/L_app.v
theories/P_app.v
theories/S_ring.v
theories/M_ring.v
theories/L_ring.v
theories/P_ring.v
theories/S_aggregate.v
theories/L_home.v
theories/P_home.v
theories/M_open.v
theories/L_idle.v
theories/P_open.v
theories/L_held.v
theories/P_held.v
theories/L_paired.v
theories/L_timeout.v
theories/P_timeout.v
theories/L_round.v
theories/P_round.v
theories/S_challenge.v
theories/L_challenge.v
theories/P_challenge.v
theories/L_poc2.v
theories/P_poc2.v
theories/S_compound.v
theories/L_compound.v
theories/P_compound.v
theories/L_done.v
theories/P_done.v
theories/S_attrs.v
theories/L_attrs.v
theories/P_attrs.v
theories/S_ports.v
theories/M_listen.v
theories/L_ports.v
theories/P_ports.v
theories/L_unsent.v
theories/P_unsent.v
theories/L_hostesc.v
theories/P_hostesc.v
theories/L_relative.v
theories/L_infer.v
theories/P_infer.v
theories/S_omits.v
theories/L_omits.v
theories/P_omits.v
theories/S_status.v
theories/L_status.v
theories/P_status.v
theories/L_file.v
theories/S_fold.v
theories/L_fold.v
theories/P_fold.v
theories/L_open.v
theories/S_queue.v
theories/L_queue.v
theories/P_queue.v
theories/L_channels.v
theories/P_channels.v
theories/P_stream.v
theories/S_illegal.v
theories/L_illegal.v
theories/P_illegal.v
theories/L_relpath.v
theories/S_authfield.v
theories/L_authfield.v
theories/P_authfield.v
theories/S_zeros.v
theories/L_zeros.v
theories/P_zeros.v
theories/S_onesession.v
theories/L_onesession.v
theories/P_onesession.v
theories/M_clock.v
theories/S_clock.v
theories/L_clock.v
theories/P_clock.v
theories/M_wire.v
theories/S_wire.v
theories/L_wire.v
theories/P_wire.v
theories/L_inner.v
theories/P_inner.v
theories/L_univ.v
theories/L_word.v
theories/P_univ.v
theories/S_creds.v
theories/L_creds.v
theories/L_credread.v
theories/P_creds.v
theories/L_odd.v
theories/P_odd.v
theories/L_nodesc.v
theories/P_nodesc.v
theories/S_rounds.v
theories/L_rounds.v
theories/P_rounds.v
theories/L_netpath.v
theories/P_netpath.v
theories/L_early.v
theories/M_float.v
theories/S_float.v
theories/L_float.v
theories/P_float.v
theories/L_spin.v
theories/P_spin.v
theories/S_ends.v
theories/L_ends.v
theories/P_ends.v
theories/S_sets.v
theories/L_told.v
theories/P_told.v
theories/S_record.v
theories/L_record.v
theories/P_record.v
theories/S_stdout.v
theories/M_stdout.v
theories/L_stdout.v
theories/P_stdout.v
theories/M_newlist.v
theories/P_newlist.v
theories/S_named.v
theories/L_named.v
theories/P_named.v
theories/S_tunnel.v
theories/L_tunnel.v
theories/P_tunnel.v
theories/P_strangers.v
theories/S_goes.v
theories/L_goes.v
theories/P_goes.v
theories/S_garbled.v
theories/L_garbled.v
theories/P_garbled.v
theories/S_short.v
theories/L_short.v
theories/P_short.v
theories/S_format.v
theories/L_format.v
theories/P_format.v
theories/S_either.v
theories/L_either.v
theories/P_either.v
theories/S_steps.v
theories/L_steps.v
theories/M_timer.v
theories/S_timer.v
theories/L_timer.v
theories/P_steps.v
theories/S_tally.v
theories/L_tally.v
theories/P_tally.v
theories/S_entail.v
theories/L_entail.v
theories/P_entail.v
theories/S_volume.v
theories/L_volume.v
theories/P_volume.v
theories/S_streams.v
theories/L_streams.v
theories/P_streams.v
theories/S_aside.v
theories/L_aside.v
theories/P_aside.v
theories/S_unused.v
theories/L_unused.v
theories/P_unused.v
theories/S_params.v
theories/L_params.v
theories/P_params.v
theories/S_follow.v
theories/L_follow.v
theories/P_follow.v
theories/S_joined.v
theories/L_joined.v
theories/P_joined.v
theories/S_origin.v
theories/L_origin.v
theories/P_origin.v
theories/S_alike.v
theories/L_alike.v
theories/P_alike.v
theories/S_changed.v
theories/L_changed.v
theories/P_changed.v
theories/S_pchanged.v
theories/L_pchanged.v
theories/P_pchanged.v
theories/L_asitcomes.v
theories/P_asitcomes.v
theories/S_escaping.v
theories/L_escaping.v
theories/P_escaping.v
theories/L_pieces.v
theories/P_pieces.v
theories/L_piecewise.v
theories/P_piecewise.v
