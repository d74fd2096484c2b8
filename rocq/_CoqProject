-Q theories Verif
theories/Base.v
theories/Crc.v
theories/RtcmFraming_model.v
theories/RtcmFraming_spec.v
theories/RtcmFraming_proofs.v
theories/Bitstring.v
theories/Bits_model.v
theories/Bits_proofs.v
theories/Bitstream_model.v
theories/Bitstream_proofs.v
theories/RtcmFrameOut_model.v
theories/RtcmFrameOut_proofs.v
theories/Properties_framing.v
theories/RtcmStation_model.v
theories/RtcmStation_spec.v
theories/RtcmStation_proofs.v
theories/RtcmMessage_proofs.v
theories/Properties_station.v
theories/RtcmLegacy_model.v
theories/RtcmLegacy_spec.v
theories/RtcmLegacy_proofs.v
theories/Properties_legacy.v
theories/RtcmMsm_model.v
theories/RtcmMsm_spec.v
theories/RtcmMsm_proofs.v
theories/Properties_msm.v
theories/RtcmEph_model.v
theories/RtcmEph_spec.v
theories/RtcmEph_proofs.v
theories/Properties_eph.v
theories/Time_model.v
theories/Time_proofs.v
theories/TimeTruth_model.v
theories/TimeTruth_proofs.v
theories/Properties_time.v
theories/ObsBuffer_model.v
theories/ObsBuffer_spec.v
theories/ObsBuffer_proofs.v
theories/Log1029_model.v
theories/Log1029_proofs.v
theories/Properties_obsbuffer.v
theories/Ssr_model.v
theories/Ssr_spec.v
theories/Ssr_proofs.v
theories/Properties_ssr.v
theories/UbxFraming_model.v
theories/UbxFraming_spec.v
theories/UbxFraming_proofs.v
theories/Properties_ubx_framing.v
theories/Bytestream_model.v
theories/Bytestream_proofs.v
theories/UbxMsg_model.v
theories/UbxMsg_proofs.v
theories/UbxVar_model.v
theories/UbxVar_proofs.v
theories/Properties_ubx_msgs.v
theories/Signals_model.v
theories/Signals_spec.v
theories/Signals_proofs.v
theories/Properties_signals.v
theories/Double_model.v
theories/Double_proofs.v
theories/UbxObs_model.v
theories/UbxObs_proofs.v
theories/Properties_ubx_obs.v
theories/Esf_model.v
theories/Esf_spec.v
theories/Esf_proofs.v
theories/Esf_loop_proofs.v
theories/Properties_esf.v
theories/Subframes_model.v
theories/Subframes_spec.v
theories/Subframes_proofs.v
theories/Subframes_run_proofs.v
theories/Subframes_live_proofs.v
theories/Sbas_proofs.v
theories/Properties_subframes.v
theories/Ixcom_model.v
theories/Ixcom_spec.v
theories/Ixcom_proofs.v
theories/Ixcom_reader_proofs.v
theories/Ixcom_msg_proofs.v
theories/Ixcom_float_proofs.v
theories/Properties_ixcom.v
theories/MsmWire_spec.v
theories/MsmWire_proofs.v
theories/Properties_wire.v
theories/Novatel_model.v
theories/Novatel_spec.v
theories/Novatel_crc_proofs.v
theories/Novatel_proofs.v
theories/Novatel_stream_proofs.v
theories/Properties_novatel.v
theories/Tables_model.v
theories/Tables_spec.v
theories/Tables_proofs.v
theories/Properties_tables.v
theories/Sbp2Rtcm_model.v
theories/Sbp2Rtcm_spec.v
theories/Sbp2Rtcm_proofs.v
theories/Sbp2Msm_model.v
theories/Sbp2Msm_spec.v
theories/Sbp2Msm_proofs.v
theories/Sbp2Msm_epoch_proofs.v
theories/Properties_sbp2rtcm.v
theories/NmeaText_model.v
theories/NmeaText_proofs.v
theories/NmeaTime_model.v
theories/NmeaTime_spec.v
theories/NmeaTime_proofs.v
theories/Nmea_model.v
theories/Nmea_spec.v
theories/NmeaState_model.v
theories/NmeaState_spec.v
theories/NmeaState_proofs.v
theories/NmeaObs_proofs.v
theories/NmeaSeq_proofs.v
theories/NmeaSend_proofs.v
theories/NmeaLists_spec.v
theories/NmeaLists_proofs.v
theories/NmeaRun_proofs.v
theories/NmeaExample.v
theories/NmeaFields_spec.v
theories/NmeaFields_proofs.v
theories/NmeaContent_proofs.v
theories/Properties_nmea.v
theories/Properties_nmea_fields.v
theories/Properties_nmea_state.v
theories/SbpEph_model.v
theories/SbpEph_spec.v
theories/Pi_proofs.v
theories/Near_proofs.v
theories/SbpEph_proofs.v
theories/Properties_sbpeph.v
theories/Exact_proofs.v
theories/NovSbp_model.v
theories/NovSbp_spec.v
theories/NovSbp_proofs.v
theories/NovPos_proofs.v
theories/NovVal_proofs.v
theories/NovImu_proofs.v
theories/Properties_novsbp.v
theories/Properties_novimu.v
theories/UbxNav_model.v
theories/UbxNav_spec.v
theories/UbxNav_proofs.v
theories/Properties_ubxnav.v
theories/MsmVal_model.v
theories/MsmVal_spec.v
theories/MsmVal_proofs.v
theories/MsmVal_wire_proofs.v
theories/MsmVal_cell_proofs.v
theories/MsmVal_epoch_proofs.v
theories/Properties_msmval.v
theories/StaConv_model.v
theories/StaConv_spec.v
theories/StaConv_proofs.v
theories/StaConv_wire_proofs.v
theories/Properties_staconv.v
theories/Abs_proofs.v
theories/LegVal_model.v
theories/LegVal_spec.v
theories/LegVal_proofs.v
theories/LegVal_sat_proofs.v
theories/LegVal_epoch_proofs.v
theories/Properties_legval.v
theories/Tunnel_model.v
theories/Tunnel_spec.v
theories/Tunnel_proofs.v
theories/Properties_tunnel.v
theories/ObsExcl_spec.v
theories/ObsExcl_proofs.v
theories/Properties_obsexcl.v
theories/Sta_model.v
theories/Properties_sta.v
theories/Conv_model.v
theories/Conv_epoch_proofs.v
theories/Properties_conv.v
theories/EphOut_model.v
theories/EphOut_spec.v
theories/EphOut_proofs.v
theories/EphOut_msg_proofs.v
theories/EphOut_relay_proofs.v
theories/Properties_ephout.v
theories/RtcmLayout_spec.v
theories/RtcmLayout_proofs.v
theories/Properties_layout.v
theories/Options_model.v
theories/MsmRx_spec.v
theories/MsmRx_num_proofs.v
theories/MsmRx_proofs.v
theories/Properties_msmrx.v
theories/Cli_model.v
theories/Properties_cli.v
theories/LegRx_model.v
theories/LegRx_spec.v
theories/LegRx_proofs.v
theories/TimeD_model.v
theories/TimeD_proofs.v
theories/Properties_timed.v
theories/Properties_legrx.v
theories/Rx_model.v
theories/Rx_spec.v
theories/Rx_proofs.v
theories/Properties_rx.v
theories/RxTx_model.v
theories/RxTx_spec.v
theories/RxTx_proofs.v
theories/RxTx_frame_proofs.v
theories/Properties_rxtx.v
theories/ToolTime_model.v
theories/ToolTime_spec.v
theories/Properties_tooltime.v
theories/Relay_model.v
theories/Relay_spec.v
theories/Relay_proofs.v
theories/Properties_relay.v
theories/RelayTime_spec.v
theories/Properties_pipe.v
theories/ObsOut_spec.v
theories/ObsOut_proofs.v
theories/ObsOut_obs_proofs.v
theories/Properties_obsout.v
theories/Settled_spec.v
theories/Settled_proofs.v
theories/Properties_settled.v
theories/Apart_spec.v
theories/Apart_proofs.v
theories/Properties_apart.v
theories/Properties_amid.v
theories/Properties_ssrapart.v
theories/Properties_txapart.v
