-Q theories Verif

theories/Common.v
theories/CommonProofs.v
theories/Base64_Model.v
theories/Base64_Spec.v
theories/Base64_Proofs.v
theories/Base64_Props.v
theories/Vec_Model.v
theories/Vec_Spec.v
theories/Vec_Proofs.v
theories/Vec_Props.v
theories/Ws_Model.v
theories/Ws_Spec.v
theories/Ws_Proofs.v
theories/Ws_Props.v
theories/WsStream_Model.v
theories/WsStream_Spec.v
theories/WsStream_Proofs.v
theories/WsStream_Props.v
theories/Http_Model.v
theories/Http_Spec.v
theories/Http_Proofs.v
theories/Http_Props.v
theories/Tcp_Model.v
theories/Tcp_Spec.v
theories/Tcp_Proofs.v
theories/Tcp_Props.v
theories/RsaAes_Model.v
theories/RsaAes_Spec.v
theories/RsaAes_Proofs.v
theories/RsaAes_Props.v
theories/Pixels_Model.v
theories/Pixels_Spec.v
theories/Pixels_Proofs.v
theories/Pixels_Props.v
theories/Zrle_Model.v
theories/Zrle_Spec.v
theories/Zrle_Proofs.v
theories/Zrle2_Proofs.v
theories/Zrle_Props.v
theories/Raw_Model.v
theories/Raw_Spec.v
theories/Raw_Proofs.v
theories/Raw_Props.v
theories/Tight_Model.v
theories/Tight_Spec.v
theories/Tight_Proofs.v
theories/Tight2_Proofs.v
theories/Tight3_Proofs.v
theories/Tight4_Proofs.v
theories/Tight_Props.v
theories/Bwe_Model.v
theories/Bwe_Spec.v
theories/Bwe_Proofs.v
theories/Bwe_Props.v
theories/Transform_Model.v
theories/Transform_Spec.v
theories/Transform_Props.v
theories/Fb_Model.v
theories/Fb_Spec.v
theories/Fb_Proofs.v
theories/Fb_Props.v
theories/Log_Model.v
theories/Log_Props.v
theories/Init_Model.v
theories/Init_Props.v
theories/Auth_Model.v
theories/Auth_Spec.v
theories/Auth_Proofs.v
theories/Auth2_Proofs.v
theories/Auth3_Proofs.v
theories/Auth4_Proofs.v
theories/Auth5_Proofs.v
theories/Auth_Props.v
theories/Msg_Model.v
theories/Msg_Spec.v
theories/Msg_Proofs.v
theories/Msg2_Proofs.v
theories/Msg3_Proofs.v
theories/Msg4_Proofs.v
theories/Upd_Proofs.v
theories/Upd_Spec.v
theories/Upd2_Proofs.v
theories/Upd3_Proofs.v
theories/Upd_Props.v
theories/Msg2_Spec.v
theories/Msg5_Proofs.v
theories/Msg6_Proofs.v
theories/Msg7_Proofs.v
theories/Msg_Props.v
theories/WsStream2_Proofs.v
theories/WsStream2_Props.v
theories/Http2_Spec.v
theories/Http2_Proofs.v
theories/Http2_Props.v
theories/Cursor_Model.v
theories/Cursor_Spec.v
theories/Cursor_Proofs.v
theories/Cursor2_Proofs.v
theories/Cursor_Props.v
theories/Refinery_Model.v
theories/Refinery_Spec.v
theories/Refinery_Proofs.v
theories/Refinery_Props.v
theories/Clip_Model.v
theories/Clip_Spec.v
theories/Clip_Proofs.v
theories/Clip_Props.v
theories/H264_Model.v
theories/H264_Spec.v
theories/H264_Proofs.v
theories/H264_Props.v
theories/V4l2_Model.v
theories/V4l2_Spec.v
theories/V4l2_Proofs.v
theories/V4l2_Props.v
theories/Gnutls_Model.v
theories/Gnutls_Spec.v
theories/Gnutls_Proofs.v
theories/Gnutls2_Proofs.v
theories/Gnutls_Props.v
theories/Life_Model.v
theories/Life_Spec.v
theories/Life_Proofs.v
theories/Life_Props.v
theories/Disp_Model.v
theories/Disp_Spec.v
theories/Disp_Proofs.v
theories/Disp_Props.v
theories/Ev_Spec.v
theories/Ev_Proofs.v
theories/Ev2_Proofs.v
theories/Ev3_Proofs.v
theories/Ev4_Proofs.v
theories/Ev_Props.v
theories/Hand_Spec.v
theories/Hand_Proofs.v
theories/Hand2_Proofs.v
theories/Hand3_Proofs.v
theories/Hand_Props.v
theories/Pace_Model.v
theories/Pace_Spec.v
theories/Pace_Proofs.v
theories/Pace_Props.v
theories/Rate_Model.v
theories/Rate_Spec.v
theories/Rate_Proofs.v
theories/Rate_Props.v
theories/Work_Model.v
theories/Work_Spec.v
theories/Work_Proofs.v
theories/Work_Props.v
theories/Ping_Model.v
theories/Ping_Spec.v
theories/Ping_Props.v
theories/Mirror_Spec.v
theories/Mirror_Proofs.v
theories/Mirror_Props.v
theories/Keys_Spec.v
theories/Keys_Proofs.v
theories/Keys_Props.v
theories/Fence_Proofs.v
theories/Fence_Props.v
theories/Dh_Model.v
theories/Dh_Spec.v
theories/Dh_Proofs.v
theories/Dh_Props.v
theories/Pem_Model.v
theories/Pem_Spec.v
theories/Pem_Proofs.v
theories/Pem_Props.v
theories/Listen_Model.v
theories/Listen_Spec.v
theories/Listen_Proofs.v
theories/Listen_Props.v
theories/Attach_Model.v
theories/Attach_Spec.v
theories/Attach_Proofs.v
theories/Attach2_Proofs.v
theories/Attach_Props.v
theories/Turn_Model.v
theories/Turn_Spec.v
theories/Turn_Proofs.v
theories/Turn_Props.v
theories/User_Model.v
theories/User_Proofs.v
theories/User_Props.v
theories/Enc_Model.v
theories/Enc_Spec.v
theories/Enc_Proofs.v
theories/Enc2_Proofs.v
theories/Enc3_Proofs.v
theories/Enc4_Proofs.v
theories/Enc_Props.v
theories/Wire_Spec.v
theories/Wire_Proofs.v
theories/Wire2_Proofs.v
theories/Wire3_Proofs.v
theories/Wire_Props.v
theories/WirePic_Props.v
theories/H264Q_Proofs.v
theories/Eye_Spec.v
theories/Eye_Proofs.v
theories/Eye_Props.v
theories/Probe_Model.v
theories/Probe_Spec.v
theories/Probe_Proofs.v
theories/Probe_Props.v
theories/Eye2_Spec.v
theories/Eye2_Proofs.v
theories/Eye2_Props.v
theories/Eye3_Spec.v
theories/Eye3_Proofs.v
theories/Eye3_Props.v
theories/Hw_Model.v
theories/Hw_Spec.v
theories/Hw_Proofs.v
theories/Hw_Props.v
theories/Gbm_Model.v
theories/Gbm_Spec.v
theories/Gbm_Proofs.v
theories/Gbm2_Proofs.v
theories/Gbm_Props.v
theories/Feed_Model.v
theories/Feed_Spec.v
theories/Feed_Proofs.v
theories/Feed_Props.v
theories/Peer_Model.v
theories/Peer_Spec.v
theories/Peer_Proofs.v
theories/Peer_Props.v
theories/Net_Spec.v
theories/Net_Proofs.v
theories/Net_Props.v
theories/Mix_Model.v
theories/Mix_Spec.v
theories/Mix_Proofs.v
theories/Mix_Props.v
theories/Room_Spec.v
theories/Room_Proofs.v
theories/Room_Props.v
theories/Talk_Model.v
theories/Talk_Spec.v
theories/Talk_Proofs.v
theories/Talk2_Proofs.v
theories/Talk3_Proofs.v
theories/Talk4_Proofs.v
theories/Talk_Props.v
theories/Serve_Model.v
theories/Serve_Spec.v
theories/Serve_Proofs.v
theories/Serve2_Proofs.v
theories/Serve3_Proofs.v
theories/Serve_Props.v
theories/Creds_Model.v
theories/Creds_Spec.v
theories/Creds_Proofs.v
theories/Creds2_Proofs.v
theories/Creds_Props.v
theories/Avlog_Model.v
theories/Avlog_Spec.v
theories/Avlog_Props.v
theories/Safe_Spec.v
theories/Safe_Proofs.v
theories/Safe2_Proofs.v
theories/Safe_Props.v
theories/Offer_Spec.v
theories/Offer_Proofs.v
theories/Offer_Props.v
theories/React_Model.v
theories/React_Spec.v
theories/React_Proofs.v
theories/React_Props.v
theories/Many_Model.v
theories/Many_Spec.v
theories/Many_Proofs.v
theories/Many2_Proofs.v
theories/Many_Props.v
theories/Tight5_Proofs.v
theories/Query_Spec.v
theories/Query_Proofs.v
theories/Query_Props.v
theories/Forge_Spec.v
theories/Forge_Proofs.v
theories/Forge2_Proofs.v
theories/Forge_Props.v
theories/Hue_Spec.v
theories/Hue_Proofs.v
theories/Hue2_Proofs.v
theories/Hue_Props.v
theories/Layout_Model.v
theories/Layout_Spec.v
theories/Layout_Proofs.v
theories/Layout_Props.v
theories/CursorHue_Spec.v
theories/CursorHue_Props.v
theories/WsFault_Spec.v
theories/WsFault_Proofs.v
theories/WsFault_Props.v
theories/Due_Spec.v
theories/Due_Proofs.v
theories/Due_Props.v
theories/HttpLen_Proofs.v
theories/WsFault2_Proofs.v
theories/WsFault2_Props.v
theories/Attach3_Spec.v
theories/Attach3_Proofs.v
theories/Attach3_Props.v
theories/Cont_Spec.v
theories/Cont_Proofs.v
theories/Cont_Props.v
theories/Rand_Model.v
theories/Rand_Spec.v
theories/Rand_Proofs.v
theories/Rand_Props.v
theories/Avail_Model.v
theories/Avail_Spec.v
theories/Avail_Proofs.v
theories/Avail_Props.v
theories/Own_Spec.v
theories/Own_Proofs.v
theories/Own_Props.v
