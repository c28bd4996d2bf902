-Q theories Verif
theories/Base.v
theories/Crc_model.v
theories/Crc_spec.v
theories/Crc_proofs.v
theories/Crc_props.v
theories/BitOps_model.v
theories/BitOps_spec.v
theories/BitOps_proofs.v
theories/BitOps_props.v
theories/G711_model.v
theories/G711_spec.v
theories/G711_proofs.v
theories/G711_props.v
theories/Bits.v
theories/Bitstream_model.v
theories/Bitstream_spec.v
theories/Bitstream_proofs.v
theories/Bitstream_props.v
theories/Async_model.v
theories/Async_spec.v
theories/Async_proofs.v
theories/Async_props.v
theories/Hdlc_model.v
theories/Hdlc_spec.v
theories/Hdlc_rx_proofs.v
theories/Hdlc_rx_safe.v
theories/Hdlc_tx_proofs.v
theories/Hdlc_props.v
theories/Queue_model.v
theories/Queue_spec.v
theories/Queue_proofs.v
theories/Queue_sys_proofs.v
theories/Queue_msg_proofs.v
theories/Queue_props.v
theories/Sched_model.v
theories/Sched_spec.v
theories/Sched_proofs.v
theories/Sched_props.v
theories/Scram_model.v
theories/Scram_spec.v
theories/Scram_proofs.v
theories/Scram_sym_proofs.v
theories/Scram_props.v
theories/Adpcm_model.v
theories/Adpcm_spec.v
theories/Adpcm_proofs.v
theories/Adpcm_vdvi_proofs.v
theories/Adpcm_props.v
theories/Playout_model.v
theories/Playout_spec.v
theories/Playout_proofs.v
theories/Playout_run_proofs.v
theories/Playout_props.v
theories/T38_model.v
theories/T38_spec.v
theories/T38_proofs.v
theories/T38_props.v
theories/V42bis_model.v
theories/V42bis_dict_proofs.v
theories/V42bis_core_proofs.v
theories/V42bis_out_proofs.v
theories/V42bis_dec_proofs.v
theories/V42bis_bits_proofs.v
theories/V42bis_enc_proofs.v
theories/V42bis_loop_proofs.v
theories/V42bis_spec.v
theories/V42bis_sess_proofs.v
theories/V42bis_safe_proofs.v
theories/V42bis_props.v
theories/Arith_model.v
theories/Arith_spec.v
theories/Arith_enc_proofs.v
theories/Arith_dec_proofs.v
theories/Arith_props.v
theories/T4_tables.v
theories/T4_enc_model.v
theories/T4_dec_model.v
theories/T4_spec.v
theories/T4_runs_proofs.v
theories/T4_bits_proofs.v
theories/T4_step_proofs.v
theories/T4_code_proofs.v
theories/T4_span_proofs.v
theories/T4_paint_proofs.v
theories/T4_row_proofs.v
theories/T4_2d_proofs.v
theories/T4_2denc_proofs.v
theories/T4_epage_proofs.v
theories/T4_dpage_proofs.v
theories/T4_drive.v
theories/T4_trip_proofs.v
theories/T4_props.v
theories/NonEcm_model.v
theories/NonEcm_spec.v
theories/NonEcm_rows_proofs.v
theories/NonEcm_proofs.v
theories/NonEcm_bad_proofs.v
theories/NonEcm_props.v
theories/T85_enc_model.v
theories/T85_dec_model.v
theories/T85_arith_proofs.v
theories/T85_pscd_proofs.v
theories/T85_run_proofs.v
theories/T85_safe_proofs.v
theories/T85_feed_proofs.v
theories/T85_turn_proofs.v
theories/T85_spec.v
theories/T85_whole_proofs.v
theories/T85_ctx_proofs.v
theories/T85_row_proofs.v
theories/T85_coded_proofs.v
theories/T85_erow_proofs.v
theories/T85_image_proofs.v
theories/T85_lossless_proofs.v
theories/T85_hdr_model.v
theories/T85_hdr_proofs.v
theories/T85_final_proofs.v
theories/T85_props.v
theories/Adsi_model.v
theories/Adsi_spec.v
theories/Adsi_rx_proofs.v
theories/Adsi_line_proofs.v
theories/Adsi_tx_proofs.v
theories/Adsi_sess_proofs.v
theories/Adsi_deliver_proofs.v
theories/Adsi_field_proofs.v
theories/Adsi_jclip_proofs.v
theories/Adsi_dtmf_proofs.v
theories/Adsi_tdd_proofs.v
theories/Adsi_final_proofs.v
theories/Adsi_props.v
theories/V42_model.v
theories/V42_spec.v
theories/V42_rel_proofs.v
theories/V42_prim_proofs.v
theories/V42_recv_proofs.v
theories/V42_link_proofs.v
theories/V42_safe_proofs.v
theories/V42_neg_proofs.v
theories/V42_final_proofs.v
theories/V42_props.v
theories/G726_model.v
theories/G726_spec.v
theories/G726_quant_proofs.v
theories/G726_step_proofs.v
theories/G726_code_proofs.v
theories/G726_tandem_proofs.v
theories/G726_pack_proofs.v
theories/G726_final_proofs.v
theories/G726_props.v
theories/G726_cell_proofs.v
theories/Sprt_model.v
theories/Sprt_spec.v
theories/Sprt_base_proofs.v
theories/Sprt_chan_proofs.v
theories/Sprt_end_proofs.v
theories/Sprt_call_proofs.v
theories/Sprt_api_proofs.v
theories/Sprt_link_proofs.v
theories/Sprt_main_proofs.v
theories/Sprt_props.v
theories/G722_model.v
theories/G722_spec.v
theories/G722_band_proofs.v
theories/G722_step_proofs.v
theories/G722_code_proofs.v
theories/G722_final_proofs.v
theories/G722_track_proofs.v
theories/G722_signal_proofs.v
theories/G722_props.v
theories/V8_model.v
theories/V8_spec.v
theories/V8_codec_proofs.v
theories/V8_bit_proofs.v
theories/V8_stream_proofs.v
theories/V8_line_proofs.v
theories/V8_heard_proofs.v
theories/V8_time_proofs.v
theories/V8_props.v
theories/Gsm_model.v
theories/Gsm_spec.v
theories/Gsm_arith_proofs.v
theories/Gsm_enc_proofs.v
theories/Gsm_rpe_proofs.v
theories/Gsm_frame_proofs.v
theories/Gsm_pack_proofs.v
theories/Gsm_api_proofs.v
theories/Gsm_props.v
theories/Ademco_model.v
theories/Ademco_spec.v
theories/Ademco_proofs.v
theories/Ademco_sender_proofs.v
theories/Ademco_props.v
theories/Bert_model.v
theories/Bert_spec.v
theories/Bert_proofs.v
theories/Bert_matrix.v
theories/Bert_period.v
theories/Bert_rx_proofs.v
theories/Bert_sync_proofs.v
theories/Bert_more_proofs.v
theories/Bert_fixed_proofs.v
theories/Bert_rate_proofs.v
theories/Bert_props.v
theories/Bert_text_spec.v
theories/Bert_text_proofs.v
theories/Bert_text_props.v
theories/Bert_loss_props.v
