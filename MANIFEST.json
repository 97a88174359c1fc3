{
 "claims": [
  {
   "property": "C01",
   "status": "proved",
   "theorems": [
    "C01_base64_round_trip"
   ],
   "note": "Full."
  },
  {
   "property": "C02",
   "status": "proved",
   "theorems": [
    "C02_base64_decode_exact"
   ],
   "note": "Full."
  },
  {
   "property": "C03",
   "status": "proved",
   "theorems": [
    "C03_vec_is_list",
    "C03_vec_fast_append"
   ],
   "note": "Full."
  },
  {
   "property": "C04",
   "status": "proved",
   "theorems": [
    "C04_server_header_round_trip"
   ],
   "note": "Full."
  },
  {
   "property": "C05",
   "status": "proved",
   "theorems": [
    "C05_parser_accepts_complete",
    "C05_parser_waits_on_prefix",
    "C05_parser_sound"
   ],
   "note": "Full: completeness, prefixes, soundness."
  },
  {
   "property": "C06",
   "status": "partial",
   "theorems": [
    "C06_masked_header_write_refuted",
    "C06_masked_header_is_key_partial"
   ],
   "note": "The property is false of the code: the masking key is stored over the start of the header. Not reachable from the server today (it never sends masked frames)."
  },
  {
   "property": "C07",
   "status": "proved",
   "theorems": [
    "C07_masking_undone",
    "C07_unmasked_copied",
    "C07_in_place_masking_undone"
   ],
   "note": "Full, for whole payloads; see C08 for payloads that arrive in pieces."
  },
  {
   "property": "C08",
   "status": "partial",
   "theorems": [
    "C08_segmentation_refuted",
    "C08_header_cut_refuted",
    "C08_empty_frame_refuted",
    "C08_segmentation_partial"
   ],
   "note": "False of the code (mask phase, cut headers, empty and control frames). Proved for every segmentation whose cuts fall between frames or inside payloads (at multiples of four bytes when masked)."
  },
  {
   "property": "C09",
   "status": "partial",
   "theorems": [
    "C09_ping_echo_refuted",
    "C09_ping_overread_refuted",
    "C09_ping_echo_partial"
   ],
   "note": "False of the code: masked pings are echoed still masked, and a ping larger than the buffer reads past it. The partial theorem says what is sent for a complete ping."
  },
  {
   "property": "C10",
   "status": "partial",
   "theorems": [
    "C10_white_space_hangs",
    "C10_normalise_refuted",
    "C10_normalise_partial"
   ],
   "note": "False: any white space hangs the server. Proved for values without white space."
  },
  {
   "property": "C11",
   "status": "partial",
   "theorems": [
    "C11_33_lines_overflow",
    "C11_field_table_refuted",
    "C11_parser_total_partial",
    "C11_request_parsed_partial"
   ],
   "note": "False: the 33rd header line is stored outside the table. Proved: termination and safety for any input with fewer than 33 CR; exact parsing for up to 32 lines."
  },
  {
   "property": "C12",
   "status": "proved",
   "theorems": [
    "C12_tcp_in_order",
    "C12_accepted_in_call_order",
    "C12_drained"
   ],
   "note": "Full, for any kernel behaviour, deferred producers and callbacks that send or close."
  },
  {
   "property": "C13",
   "status": "partial",
   "theorems": [
    "C13_finished_once",
    "C13_close_deferred_refuted",
    "C13_close_in_callback_refuted",
    "C13_no_fault_partial",
    "C13_only_faults_partial"
   ],
   "note": "Exactly-once completion is proved for every run that does not fault; runs can fault in two ways (witnesses); without deferred sends and closing callbacks none does."
  },
  {
   "property": "C14",
   "status": "proved",
   "theorems": [
    "C14_send_round_trip",
    "C14_receive_authentic"
   ],
   "note": "Both directions, any cipher that is length preserving, invertible and has 16-byte tags; any number of send calls, any segmentation on input."
  },
  {
   "property": "C15",
   "status": "proved",
   "theorems": [
    "C15_nonces_distinct"
   ],
   "note": "Proved for the nonce/counter code of both AES-EAX variants (same code)."
  },
  {
   "property": "C16",
   "status": "partial",
   "theorems": [
    "C16_long_message_never_delivered",
    "C16_progress_refuted",
    "C16_backlog_refuted",
    "C16_empty_message_refuted",
    "C16_progress_partial",
    "C16_front_message_partial"
   ],
   "note": "False: messages over 8174 bytes (this server sends up to 8192) are never delivered and end in a close; an empty message or a short destination leaves complete messages behind. Partial: 1..8174 bytes and a destination of at least 8174."
  },
  {
   "property": "C17",
   "status": "proved",
   "theorems": [
    "C17_tile_round_trip"
   ],
   "note": "Whenever the encoder returns; C18 says when it does."
  },
  {
   "property": "C18",
   "status": "partial",
   "theorems": [
    "C18_palette_overflow_refuted",
    "C18_wide_cpixels_overflow",
    "C18_tile_partial",
    "C18_frame_partial"
   ],
   "note": "False for CPIXELs of 4 bytes: cpalette[16*3] overflows for every tile with 13 to 16 colours. Proved for CPIXELs up to 3 bytes, whole frames included, and for tiles of up to 12 colours."
  },
  {
   "property": "C19",
   "status": "proved",
   "theorems": [
    "C19_tiles"
   ],
   "note": ""
  },
  {
   "property": "C20",
   "status": "proved",
   "theorems": [
    "C20_compact_length"
   ],
   "note": "Proved for every length below 2^22: reads back, at most 3 bytes, and no shorter byte string reads to the same length."
  },
  {
   "property": "C21",
   "status": "partial",
   "theorems": [
    "C21_every_damaged_pixel_is_sent_refuted",
    "C21_every_damaged_pixel_is_sent_partial",
    "C21_every_rectangle_is_damaged"
   ],
   "note": "False for framebuffers wider or higher than 32704: tile boxes are 16-bit and the edge 32768 wraps, so damage in that column is never sent (refuted with a witness). Partial: up to 32704, rectangle count equals rectangles read, each inside the framebuffer, each damaged pixel in exactly one."
  },
  {
   "property": "C22",
   "status": "proved",
   "theorems": [
    "C22_raw_frame_reads_back"
   ],
   "note": "C22_raw_frame_reads_back: a client reads exactly the announced number of rectangles, each pixel is the conversion of the framebuffer's."
  },
  {
   "property": "C23",
   "status": "partial",
   "theorems": [
    "C23_pixel_conversion",
    "C23_same_width_exact",
    "C23_big_endian_source_refuted"
   ],
   "note": "Any pair of true-colour formats whose fields are disjoint, any number of pixels. Refuted only for big-endian sources: the byte order of the framebuffer format is ignored."
  },
  {
   "property": "C24",
   "status": "partial",
   "theorems": [
    "C24_formats_refuted",
    "C24_formats_partial"
   ],
   "note": "False for the eight 4444 formats (maximum 0x7f for 4-bit fields, so channels overlap). Proved for every other accepted format code."
  },
  {
   "property": "C25",
   "status": "partial",
   "theorems": [
    "C25_cpixel_size_refuted",
    "C25_cpixel_straddle_refuted",
    "C25_cpixel_size_partial"
   ],
   "note": "False: with 32 bits per pixel and depth 16 or less the size is 2, 1 or 0; colour bits in the middle are still sent as 3 bytes."
  },
  {
   "property": "C26",
   "status": "partial",
   "theorems": [
    "C26_transforms_agree_refuted",
    "C26_transforms_agree_partial"
   ],
   "note": "False for dimensions of 32768 or more (translation overflows int, refuted). Partial: all eight transforms up to 32767x32767."
  },
  {
   "property": "C27",
   "status": "proved",
   "theorems": [
    "C27_estimate_is_of_recent_samples",
    "C27_history_before_does_not_matter"
   ],
   "note": "Proved for every history; the estimate is an exact fraction, its conversion to double and int is abstracted to exact arithmetic."
  },
  {
   "property": "C28",
   "status": "partial",
   "theorems": [
    "C28_estimate_is_defined_refuted",
    "C28_fast_first_reply_is_undefined",
    "C28_estimate_is_defined_partial"
   ],
   "note": "False: a first reply faster than the handshake divides by zero (refuted, and proved for all such replies). Partial: defined when every sample took longer than the minimal round trip time."
  },
  {
   "property": "C29",
   "status": "proved",
   "theorems": [
    "C29_destroyed_and_released_in_time",
    "C29_release_runs_callback_at_once"
   ],
   "note": "Proved for every sequence in which owners drop only what they have."
  },
  {
   "property": "C30",
   "status": "proved",
   "theorems": [
    "C30_pool_hands_out_idle_buffers_of_its_geometry",
    "C30_framebuffers_in_use_stay",
    "C30_holding_a_returned_buffer_breaks_the_pool"
   ],
   "note": "Proved for every execution in which calls go through references the callers have and holds end when the buffer is given back; that this condition is needed is proved too. One pool, main-memory framebuffers."
  },
  {
   "property": "C31",
   "status": "partial",
   "theorems": [
    "C31_allocation_is_large_enough_refuted",
    "C31_allocation_is_large_enough_partial"
   ],
   "note": "False: the product is computed in 32 bits (no bytes for 32768x32768x4, int overflow above), and formats unknown to the library (RGB565) get no bytes. Partial: known formats below 2^31 pixels and 2^32 bytes."
  },
  {
   "property": "C32",
   "status": "proved",
   "theorems": [
    "C32_no_access_without_authentication"
   ],
   "note": "For configurations made before the first connection (see C74); executions without failure (see C35, C77, C79, C80)."
  },
  {
   "property": "C33",
   "status": "proved",
   "theorems": [
    "C33_credentials_only_after_the_upgrade"
   ],
   "note": "See C75 for bytes that came before the upgrade."
  },
  {
   "property": "C34",
   "status": "proved",
   "theorems": [
    "C34_plain_credentials_exact",
    "C34_rsa_credentials_exact",
    "C34_apple_credentials_exact"
   ],
   "note": "All three credential messages."
  },
  {
   "property": "C35",
   "status": "partial",
   "theorems": [
    "C35_challenge_fits_buffer_refuted",
    "C35_long_keys_overflow",
    "C35_challenge_fits_buffer_partial"
   ],
   "note": "False: a client key of 1023 to 2046 bytes makes the challenge overflow a 1024 byte buffer on the stack before authentication. Proved for keys up to 1022 bytes, with RSA assumed to give numbers below the modulus."
  },
  {
   "property": "C36",
   "status": "proved",
   "theorems": [
    "C36_segmentation_does_not_matter"
   ],
   "note": "Proved for all accepted message lists, all splits and any unfinished rest."
  },
  {
   "property": "C37",
   "status": "partial",
   "theorems": [
    "C37_consumes_what_was_received_partial",
    "C37_parse_position_refuted"
   ],
   "note": "False for fences that arrive in pieces (length byte read before it arrives; responses consumed before they are complete): refuted. Proved for every other message."
  },
  {
   "property": "C38",
   "status": "partial",
   "theorems": [
    "C38_request_is_consumed_partial",
    "C38_incremental_request_wedges",
    "C38_request_is_consumed_refuted"
   ],
   "note": "False: an incremental request while continuous updates are on returns 0 and stays in the buffer for good (universal theorem and reachable witness). Proved for all other requests."
  },
  {
   "property": "C39",
   "status": "partial",
   "theorems": [
    "C39_key_code_in_table_partial",
    "C39_key_code_out_of_table",
    "C39_key_code_in_table_refuted"
   ],
   "note": "False for codes of 254 and above, which read past the table (universal theorem and witness). Proved for codes below 254."
  },
  {
   "property": "C40",
   "status": "partial",
   "theorems": [
    "C40_supported_encodings_in_order",
    "C40_last_quality_partial",
    "C40_last_quality_refuted"
   ],
   "note": "The list of encodings is proved in full. The quality part is false when it follows the 32nd supported encoding (refuted) and proved when fewer than 32 are supported."
  },
  {
   "property": "C41",
   "status": "proved",
   "theorems": [
    "C41_first_usable_encoding"
   ],
   "note": "Proved."
  },
  {
   "property": "C42",
   "status": "partial",
   "theorems": [
    "C42_cut_text_is_delivered_once",
    "C42_longer_cut_text_is_refused_refuted"
   ],
   "note": "Delivery is proved for every text up to the limit and every split. Refusal of longer texts is false: the client is freed while in use (refuted)."
  },
  {
   "property": "C43",
   "status": "partial",
   "theorems": [
    "C43_crlf_to_lf_partial",
    "C43_every_cr_becomes_lf",
    "C43_crlf_to_lf_refuted"
   ],
   "note": "False for a CR on its own, which becomes LF (exact description proved, witness given). Proved for texts without one, terminated by 0."
  },
  {
   "property": "C44",
   "status": "partial",
   "theorems": [
    "C44_within_the_message_partial",
    "C44_within_the_message_refuted"
   ],
   "note": "False for announced lengths of 1-3 bytes (read outside) and 2^31 (signed overflow). Proved for all others."
  },
  {
   "property": "C45",
   "status": "partial",
   "theorems": [
    "C45_count_of_rectangles_partial",
    "C45_count_in_extension_update",
    "C45_count_of_rectangles_refuted"
   ],
   "note": "False when an encoded frame has 65534 or more rectangles and pseudo-rectangles are added (16-bit wrap). Proved for all smaller frames and for the extension update."
  },
  {
   "property": "C46",
   "status": "partial",
   "theorems": [
    "C46_damage_is_never_lost_partial",
    "C46_pending_damage_is_kept_partial",
    "C46_damage_is_never_lost_refuted"
   ],
   "note": "Proved for buffers of at most 32767 by 32767 pixels; refuted for wider ones (pixman 16-bit coordinates)."
  },
  {
   "property": "C47",
   "status": "partial",
   "theorems": [
    "C47_one_frame_and_requests_counted_partial",
    "C47_one_frame_and_requests_counted_refuted"
   ],
   "note": "Proved when no message is handled from inside another's completion (no fence waiting, or no buffered data); refuted otherwise."
  },
  {
   "property": "C48",
   "status": "partial",
   "theorems": [
    "C48_fence_is_answered_at_once_partial",
    "C48_block_before_waits_for_the_frame_partial",
    "C48_fences_are_answered_once_refuted"
   ],
   "note": "False in two ways, both refuted with runs: abort when a fence arrives while a request is outstanding, and a second fence overwrites a waiting one. Proved for a fence on an idle client and for one BLOCK_BEFORE fence during a frame."
  },
  {
   "property": "C49",
   "status": "proved",
   "theorems": [
    "C49_layout_checked_and_answered"
   ],
   "note": "Proved for every layout."
  },
  {
   "property": "C50",
   "status": "partial",
   "theorems": [
    "C50_cursor_colours_partial",
    "C50_cursor_reads_back_partial",
    "C50_room",
    "C50_mask_overflow",
    "C50_stays_in_bounds_refuted",
    "C50_no_alpha_refuted",
    "C50_16_bits_refuted",
    "C50_unknown_to_pixman_refuted",
    "C50_hotspot",
    "C50_hotspot_refuted",
    "C50_part_of_an_image_refuted",
    "C50_no_cursor"
   ],
   "note": "False in several ways: the mask is written out of bounds for widths that are not multiples of eight and more than 4096 bytes (C50_mask_overflow is exact), images without alpha are sent without mask, 16-bit images are read and cleared out of bounds, the hotspot is wrong under six of eight transforms, and part of a transformed image is the wrong part. C50_cursor_reads_back_partial: 32-bit formats with alpha, within the reserved size."
  },
  {
   "property": "C51",
   "status": "partial",
   "theorems": [
    "C51_refined_exactly_partial",
    "C51_changes_are_kept",
    "C51_same_frame_again",
    "C51_zero_hash_is_left_out",
    "C51_every_hash_drops_a_change",
    "C51_changed_contents_refuted",
    "C51_damage_outside_refuted",
    "C51_wide_buffer_refuted"
   ],
   "note": "Partial: exact over every sequence of frames with sizes up to 32736 and damage inside the buffer, in terms of the hash. False for contents (any 32 bit hash drops a change), for damage outside the buffer (out-of-bounds read) and for wider buffers (last column never passed on)."
  },
  {
   "property": "C52",
   "status": "partial",
   "theorems": [
    "C52_led_state_partial",
    "C52_led_state_refuted"
   ],
   "note": "Proved for clients with the QEMU encoding; refuted for clients with only the VMware one (QEMU number with a four-byte payload)."
  },
  {
   "property": "C53",
   "status": "proved",
   "theorems": [
    "C53_name_is_kept_and_terminated",
    "C53_server_init_carries_the_name"
   ],
   "note": "Proved for every name."
  },
  {
   "property": "C54",
   "status": "proved",
   "theorems": [
    "C54_log_filter_and_trimming"
   ],
   "note": "Proved for every level, settings and message (cut to 1023 bytes); isspace is glibc's in the C locale."
  },
  {
   "property": "C55",
   "status": "proved",
   "theorems": [
    "C55_freed_once_at_balance"
   ],
   "note": "Proved for every order of references and drops."
  },
  {
   "property": "C56",
   "status": "partial",
   "theorems": [
    "C56_only_long_pings_overread",
    "C56_allowed_pings_are_safe",
    "C56_ws_read_safe_partial",
    "C56_ws_read_safe_refuted"
   ],
   "note": "False because of the ping over-read (C09). Everything else is proved for all inputs: reading terminates, returns no more than asked for, and leaves the buffer only for a ping announcing more than 4082 bytes (RFC 6455 allows 125) that starts where a frame header is expected (C56_only_long_pings_overread); a client that keeps to the limit is read safely (C56_allowed_pings_are_safe)."
  },
  {
   "property": "C57",
   "status": "proved",
   "theorems": [
    "C57_sent_frames",
    "C57_deferred_frames"
   ],
   "note": "Full."
  },
  {
   "property": "C58",
   "status": "partial",
   "theorems": [
    "C58_cut_request_accepted",
    "C58_early_answer_refuted"
   ],
   "note": "False: a request cut after any header line is accepted and answered."
  },
  {
   "property": "C59",
   "status": "partial",
   "theorems": [
    "C59_only_chat_is_accepted_partial",
    "C59_subprotocol_refuted"
   ],
   "note": "C59_only_chat_is_accepted_partial decides acceptance for all offers without white space up to 255 bytes; the answer says \"char\" where the client asked for chat (refuted)."
  },
  {
   "property": "C60",
   "status": "proved",
   "theorems": [
    "C60_handshake_accept"
   ],
   "note": "Full for requests without a subprotocol header (see C10, C59 for those) and a non-empty key."
  },
  {
   "property": "C61",
   "status": "partial",
   "theorems": [
    "C61_stall_refuted",
    "C61_stall_partial"
   ],
   "note": "False: a write that ends exactly at the end of a request switches write events off although more is queued. Proved for EAGAIN and for writes ending inside a request."
  },
  {
   "property": "C62",
   "status": "partial",
   "theorems": [
    "C62_priority_interleaves_refuted",
    "C62_priority_next_partial"
   ],
   "note": "False when the head of the queue was sent in part. Proved: its bytes are the very next ones on the wire."
  },
  {
   "property": "C63",
   "status": "partial",
   "theorems": [
    "C63_cpixel_low_bytes_refuted",
    "C63_cpixel_bytes_partial"
   ],
   "note": "False when the lowest colour shift is neither 0 (low bytes) nor 8 (high bytes)."
  },
  {
   "property": "C64",
   "status": "partial",
   "theorems": [
    "C64_client_format_abort_refuted",
    "C64_client_format_shift_refuted",
    "C64_client_format_partial"
   ],
   "note": "False: bits-per-pixel 0 (or above 32) reaches abort(), a shift of 32 or more is undefined; the message is not validated."
  },
  {
   "property": "C65",
   "status": "proved",
   "theorems": [
    "C65_alpha_mask"
   ],
   "note": "Pixel values below 2^32 are not even needed; little-endian host."
  },
  {
   "property": "C66",
   "status": "proved",
   "theorems": [
    "C66_frame_reads_back"
   ],
   "note": "zlib is a hypothesis of the theorem (zlib_works), shown satisfiable; compressed size below 2^32 assumed."
  },
  {
   "property": "C67",
   "status": "proved",
   "theorems": [
    "C67_tile_not_larger_than_raw"
   ],
   "note": ""
  },
  {
   "property": "C68",
   "status": "proved",
   "theorems": [
    "C68_raw_stays_in_bounds"
   ],
   "note": "C68_raw_stays_in_bounds. Offsets are unbounded integers: areas of 2^31 bytes and more are outside."
  },
  {
   "property": "C69",
   "status": "partial",
   "theorems": [
    "C69_tight_output_stays_in_bounds_refuted",
    "C69_tight_output_stays_in_bounds_partial"
   ],
   "note": "False: length bytes are appended without growing the vector (refuted with a witness of 425x1 pixels). Partial: no fault whenever 4wh >= pixel bytes + (16+e) per tile."
  },
  {
   "property": "C70",
   "status": "partial",
   "theorems": [
    "C70_basic_tight_reads_back_short_refuted",
    "C70_basic_tight_reads_back_format_refuted",
    "C70_basic_tight_reads_back_partial"
   ],
   "note": "False for tiles of fewer than 12 bytes of pixels (must be sent uncompressed) and for client formats where the server's pixel size is not the protocol's (both refuted). Partial: everything else."
  },
  {
   "property": "C71",
   "status": "proved",
   "theorems": [
    "C71_workers_interleave_freely"
   ],
   "note": "Proved with a tile as the atomic step of a worker."
  },
  {
   "property": "C72",
   "status": "partial",
   "theorems": [
    "C72_jpeg_rectangles_show_framebuffer_refuted",
    "C72_jpeg_rectangles_show_framebuffer_partial"
   ],
   "note": "False of framebuffer formats without a turbojpeg name (empty image); proved: the image is turbojpeg's output for exactly the pixels, with a name for the order of colours under which every colour is found at its byte, or empty for one of three reasons."
  },
  {
   "property": "C73",
   "status": "partial",
   "theorems": [
    "C73_server_init_describes_framebuffer_refuted",
    "C73_server_init_describes_framebuffer_partial"
   ],
   "note": "False of the 16-bit (4444) formats, whose announced channels overlap (refuted). Partial: all 24 and 32 bit formats."
  },
  {
   "property": "C74",
   "status": "partial",
   "theorems": [
    "C74_auth_settings_take_effect_refuted",
    "C74_auth_settings_take_effect_partial"
   ],
   "note": "False: the list of security types is computed at the first connection and kept, so authentication enabled later has no effect. Proved for settings made before the first connection."
  },
  {
   "property": "C75",
   "status": "partial",
   "theorems": [
    "C75_nothing_from_before_the_upgrade_refuted",
    "C75_nothing_from_before_the_upgrade_partial"
   ],
   "note": "False: bytes left in the receive buffer at the upgrade are parsed as if they had come through the encrypted channel. Proved for an empty buffer at the upgrade."
  },
  {
   "property": "C76",
   "status": "partial",
   "theorems": [
    "C76_encryption_flag_encrypts_refuted",
    "C76_encryption_flag_encrypts_partial"
   ],
   "note": "False for the encryption flag without the authentication flag: the server then offers only the type None. Proved with both flags."
  },
  {
   "property": "C77",
   "status": "partial",
   "theorems": [
    "C77_client_keys_are_harmless_refuted",
    "C77_client_keys_are_harmless_partial"
   ],
   "note": "False: a key nettle does not accept has size 0, and exporting it fails an assertion (writes before the allocation if assertions are off). Proved for keys whose modulus and exponent fit the key size."
  },
  {
   "property": "C78",
   "status": "partial",
   "theorems": [
    "C78_challenge_is_the_ciphertext_refuted",
    "C78_challenge_sent",
    "C78_challenge_is_the_ciphertext_partial"
   ],
   "note": "False for ciphertexts with leading zero bytes: the length is that of the number, so the leading zeros are sent and the last bytes are not. Exact description proved; correct for ciphertexts of full length."
  },
  {
   "property": "C79",
   "status": "partial",
   "theorems": [
    "C79_apple_key_is_sent_refuted",
    "C79_apple_key_is_sent_partial"
   ],
   "note": "False for public keys with a leading zero byte: the assertion on the exported length fails. Proved for keys of full length."
  },
  {
   "property": "C80",
   "status": "partial",
   "theorems": [
    "C80_no_use_after_close_refuted",
    "C80_no_use_after_close_partial"
   ],
   "note": "False: nvnc_client_close frees the client at once and the receive loop goes on using it (wrong RSA-AES hash, failed decryption, failed TLS upgrade, failed ServerInit). Proved total for builds without RSA-AES and Apple DH if TLS and ServerInit do not fail."
  },
  {
   "property": "C81",
   "status": "proved",
   "theorems": [
    "C81_handshake_loop_ends",
    "C81_messages_take_what_was_received"
   ],
   "note": ""
  },
  {
   "property": "C82",
   "status": "proved",
   "theorems": [
    "C82_nothing_after_refusal"
   ],
   "note": ""
  },
  {
   "property": "C83",
   "status": "proved",
   "theorems": [
    "C83_one_attempt_per_connection"
   ],
   "note": ""
  },
  {
   "property": "C84",
   "status": "proved",
   "theorems": [
    "C84_session_keys_as_prescribed"
   ],
   "note": ""
  },
  {
   "property": "C85",
   "status": "partial",
   "theorems": [
    "C85_damage_until_sent_partial",
    "C85_damage_until_sent_refuted"
   ],
   "note": "False of the code: the damage is cleared when the frame is given to the encoder; if the encoder fails or the frame is dropped in finish_fb_update the damage is gone. Refuted with two runs. Partial: in every run in which no frame is refused or dropped a marked pixel is still marked, in a frame begun since that is on its way, or sent in a frame begun since (nested reads after fences and pixels beyond 32767 excluded)."
  },
  {
   "property": "C86",
   "status": "partial",
   "theorems": [
    "C86_only_known_faults_partial",
    "C86_upgrade",
    "C86_reading_is_safe_partial",
    "C86_too_long_a_request",
    "C86_full_buffer_closes"
   ],
   "note": "The faults of the request parser (C10, C11) before the upgrade and the ping over-read (C09) after it remain; C86_only_known_faults_partial shows that no read faults for any other reason."
  },
  {
   "property": "C87",
   "status": "proved",
   "theorems": [
    "C87_text_and_pong_are_skipped",
    "C87_rest_is_skipped",
    "C87_close_frame_closes",
    "C87_unknown_frame_fails"
   ],
   "note": ""
  },
  {
   "property": "C88",
   "status": "partial",
   "theorems": [
    "C88_cursor_is_held_partial",
    "C88_map_failure_refuted",
    "C88_same_image_refuted"
   ],
   "note": "False if mapping the image fails (C88_map_failure_refuted: the caller's reference is dropped) or if the server has the only reference to an image that is set again (C88_same_image_refuted)."
  },
  {
   "property": "C89",
   "status": "partial",
   "theorems": [
    "C89_every_connection_gets_the_text",
    "C89_only_after_the_handshake_refuted"
   ],
   "note": "False: the loop does not look at the state of the client, so the clipboard goes to connections that have not authenticated, in the middle of their handshake. The universal theorem describes it for every open connection without the extended clipboard."
  },
  {
   "property": "C90",
   "status": "partial",
   "theorems": [
    "C90_readable_text_partial",
    "C90_before_capabilities_are_known",
    "C90_text_on_request",
    "C90_strict_readers_refuse_it",
    "C90_readable_text_refuted"
   ],
   "note": "False in two cases: the announced size leaves out the zero byte, so a strict receiver (this library's own among them) refuses the text; an empty text is not announced at all. Everything else is proved for all texts shorter than 2^32-5."
  },
  {
   "property": "C91",
   "status": "partial",
   "theorems": [
    "C91_one_update_per_frame_partial",
    "C91_in_the_order_given",
    "C91_one_update_per_frame_refuted"
   ],
   "note": "Proved for the server's pacing whenever the library makes a packet of every frame. False otherwise: an empty packet (encoding error) is only logged, the update never completes, so the client gets no further updates, and a frame queued behind it is never begun."
  },
  {
   "property": "C92",
   "status": "partial",
   "theorems": [
    "C92_key_frames_partial",
    "C92_no_update_resets_the_decoder",
    "C92_reset_is_announced_refuted"
   ],
   "note": "Key frames are exactly the prescribed ones. The reset is never announced: OPEN_H264_FLAG_RESET_CONTEXT is 0."
  },
  {
   "property": "C93",
   "status": "partial",
   "theorems": [
    "C93_framebuffers_are_given_back_partial",
    "C93_framebuffers_are_given_back_refuted"
   ],
   "note": "Proved for the server's pacing (one frame at a time). An encoder destroyed with a second frame in its queue leaks that frame."
  },
  {
   "property": "C94",
   "status": "partial",
   "theorems": [
    "C94_ffmpeg_layout",
    "C94_v4l2_layout_is_reversed",
    "C94_v4l2_layout_refuted"
   ],
   "note": "True for FFmpeg. For V4L2 every choice is the reverse of the frame's layout: its names are read as if they were in the order of DRM's. The table for the bcm2835 driver, which is said to mix them up, is left out."
  },
  {
   "property": "C95",
   "status": "partial",
   "theorems": [
    "C95_no_crash_partial",
    "C95_no_crash_refuted"
   ],
   "note": "False: after the encoder could not be created for the display's size, a request for the whole screen reads through a null pointer; a framebuffer with a transform fails an assertion."
  },
  {
   "property": "C96",
   "status": "partial",
   "theorems": [
    "C96_held_while_in_a_buffer",
    "C96_dropped_only_when_full",
    "C96_no_frame_is_lost_refuted"
   ],
   "note": "Proved except for its last part: a frame given up completes no update, so the client gets no more."
  },
  {
   "property": "C97",
   "status": "partial",
   "theorems": [
    "C97_encode_from_the_callback_partial",
    "C97_encode_from_the_callback_refuted"
   ],
   "note": "False when the size changes: the callback destroys the encoder whose loop then queues the buffer again. Proved for frames of one size."
  },
  {
   "property": "C98",
   "status": "proved",
   "theorems": [
    "C98_tls_in_order_once",
    "C98_send_accepts",
    "C98_send_no_fault"
   ],
   "note": "Proved for every script, callback and event sequence; sending itself never faults."
  },
  {
   "property": "C99",
   "status": "partial",
   "theorems": [
    "C99_handshake_forgets_refuted",
    "C99_left_over_refuted",
    "C99_output_watched_partial"
   ],
   "note": "False for data sent during the handshake or left queued by the unencrypted stream; proved otherwise."
  },
  {
   "property": "C100",
   "status": "partial",
   "theorems": [
    "C100_failed_handshake_refuted",
    "C100_failed_send_refuted",
    "C100_end_reported_partial",
    "C100_told_once"
   ],
   "note": "A failed handshake leaves the connection open for ever; a failed send closes it silently. Proved for failures met by a read; reported at most once."
  },
  {
   "property": "C101",
   "status": "partial",
   "theorems": [
    "C101_tls_input_in_order",
    "C101_long_record_waits",
    "C101_record_stuck_refuted",
    "C101_prompt_partial"
   ],
   "note": "Order and completeness proved; promptness false for records longer than the free space of the message buffer, proved for records that fit."
  },
  {
   "property": "C102",
   "status": "partial",
   "theorems": [
    "C102_notice_drops_client_refuted",
    "C102_signal_drops_client_refuted",
    "C102_session_goes_on_partial"
   ],
   "note": "False for warning alerts and interrupted reads; proved when only application data arrives."
  },
  {
   "property": "C103",
   "status": "partial",
   "theorems": [
    "C103_write_after_free_refuted",
    "C103_one_event_partial",
    "C103_only_fault"
   ],
   "note": "False when a read fails in a turn in which the connection is also writable; it is the only fault of the TLS stream."
  },
  {
   "property": "C104",
   "status": "partial",
   "theorems": [
    "C104_accounted_once",
    "C104_close_after_hangup_refuted",
    "C104_exclusive_after_refusal_refuted",
    "C104_two_deferrals_refuted",
    "C104_early_close_fatal",
    "C104_no_use_after_free_partial",
    "C104_delete_frees_all"
   ],
   "note": "No use after free refuted in four ways (close after hang-up, exclusive access or deletion after a refusal, hang-up with a last message queued); C104_early_close_fatal describes them in every reachable state. Proved: cleanup at most once in all runs; no use after free when nothing whose end is under way is closed; deletion frees every client."
  },
  {
   "property": "C105",
   "status": "partial",
   "theorems": [
    "C105_closed_twice_refuted",
    "C105_no_display_refuted",
    "C105_never_balanced",
    "C105_balanced_partial",
    "C105_taken_on"
   ],
   "note": "Refuted: with no buffer fed yet the descriptor is closed twice, with no display a null pointer is used, and the estimator is lost in every refusal. Partial: balanced apart from the estimator when accept or the stream fails; success keeps everything."
  },
  {
   "property": "C106",
   "status": "partial",
   "theorems": [
    "C106_name_left_refuted",
    "C106_left_partial",
    "C106_success"
   ],
   "note": "Refuted for plain sockets: the name stays when listen fails after bind. Partial: no descriptor is left, and for WebSockets no name."
  },
  {
   "property": "C107",
   "status": "partial",
   "theorems": [
    "C107_release_report_refuted",
    "C107_release_report_partial"
   ],
   "note": "Refuted: feeding the displayed buffer again reports it released while it stays displayed. Proved for all other steps of all runs."
  },
  {
   "property": "C108",
   "status": "partial",
   "theorems": [
    "C108_order_refuted",
    "C108_order_rotated_refuted",
    "C108_order_partial"
   ],
   "note": "Refuted for rotated and upright buffers mixed and for two copies in flight. Proved when nothing is fed while a copy is being made."
  },
  {
   "property": "C109",
   "status": "partial",
   "theorems": [
    "C109_damage_reported_refuted",
    "C109_failed_feeds_lost",
    "C109_damage_reported_partial"
   ],
   "note": "Refuted when the feed fails: the damage is lost silently. Proved for the feeds that are accepted."
  },
  {
   "property": "C110",
   "status": "partial",
   "theorems": [
    "C110_display_gone_copying_refuted",
    "C110_display_gone_buffers_refuted",
    "C110_display_gone_partial",
    "C110_freed_exactly_partial"
   ],
   "note": "Refuted: a copy that ends after the display is gone, and freeing a rotated buffer after the display is gone, use freed memory. Proved: no fault when the display goes last; buffers are freed exactly when dropped and unused (all runs)."
  },
  {
   "property": "C111",
   "status": "partial",
   "theorems": [
    "C111_pts_rotated_refuted",
    "C111_copies_have_no_time",
    "C111_pts_again_refuted",
    "C111_pts_partial"
   ],
   "note": "Refuted: copies of rotated buffers never have a time; feeding the displayed buffer again clears it. Proved for upright buffers that are not displayed."
  },
  {
   "property": "C112",
   "status": "proved",
   "theorems": [
    "C112_events_reach_the_application"
   ],
   "note": "Continuous updates off; with them on an incremental request stalls the connection (C38)."
  },
  {
   "property": "C113",
   "status": "partial",
   "theorems": [
    "C113_true_colour_format",
    "C113_colour_map",
    "C113_pixel_size_refuted",
    "C113_stale_frame_not_sent"
   ],
   "note": "Refuted: with a colour map the pixel size asked for is ignored (always 8 bits). The stale frame theorem excepts clients with fences, as the code does. Rounding of 65535.0/m*v is modelled exactly."
  },
  {
   "property": "C114",
   "status": "partial",
   "theorems": [
    "C114_changes_in_the_area_are_sent",
    "C114_full_request_partial",
    "C114_announced_once",
    "C114_outside_damage_waits",
    "C114_only_the_area_refuted",
    "C114_full_request_refuted"
   ],
   "note": "Refuted: damage outside the area is sent along, and a full request outside the area is not answered until something inside it changes. Proved: changes outside cause no frame, changes and full requests that touch the area are encoded at once when no update is being made and nothing holds it back."
  },
  {
   "property": "C115",
   "status": "partial",
   "theorems": [
    "C115_new_size_is_told_partial",
    "C115_told_once",
    "C115_client_without_support",
    "C115_resizing_is_safe_refuted"
   ],
   "note": "Refuted: a client without support is closed by finish_fb_update and used afterwards (use after free). Partial: sizes up to 32767 (16-bit regions)."
  },
  {
   "property": "C116",
   "status": "partial",
   "theorems": [
    "C116_nothing_unasked_step",
    "C116_nothing_unasked_partial",
    "C116_same_size_refuted"
   ],
   "note": "Refuted for an unchanged size: clients with ExtendedDesktopSize get the whole screen after each full request, because the request resets the known size. Coordinates wrap at 16 bits, as in the code."
  },
  {
   "property": "C117",
   "status": "partial",
   "theorems": [
    "C117_time_is_answered",
    "C117_times_are_only_logged_partial",
    "C117_times_refuted"
   ],
   "note": "Refuted: times chosen by the client make signed arithmetic overflow (undefined behaviour). The third time is filled in when the message leaves the queue, which is not modelled here."
  },
  {
   "property": "C118",
   "status": "proved",
   "theorems": [
    "C118_handshake_follows_the_protocol",
    "C118_announced_once_at_the_end",
    "C118_version_is_answered",
    "C118_vencrypt_choices_are_checked"
   ],
   "note": "The protocol automaton is in Hand_Spec.v."
  },
  {
   "property": "C119",
   "status": "proved",
   "theorems": [
    "C119_cutting_of_reads_does_not_matter",
    "C119_cutting_across_the_upgrade_matters"
   ],
   "note": "Across an upgrade cutting matters (C119_cutting_across_the_upgrade_matters, see also C75)."
  },
  {
   "property": "C120",
   "status": "proved",
   "theorems": [
    "C120_shared_flag_decides",
    "C120_others_disconnected_by_admitted_clients_only"
   ],
   "note": "Which clients are closed by it is C98-C105 (life of clients)."
  },
  {
   "property": "C121",
   "status": "proved",
   "theorems": [
    "C121_keys_come_from_fresh_random_numbers"
   ],
   "note": "That the random generator is good is not modelled."
  },
  {
   "property": "C122",
   "status": "partial",
   "theorems": [
    "C122_in_flight_is_unanswered_partial",
    "C122_late_answer_never_subtracted_refuted",
    "C122_answer_across_the_sign_change_overflows"
   ],
   "note": "Proved for answers that come within 2^31 microseconds; refuted without: a late answer is thrown away and its bytes stay in flight for ever. Answers across the sign change of the 32 bit clock overflow a signed int."
  },
  {
   "property": "C123",
   "status": "partial",
   "theorems": [
    "C123_limit_is_one_round_trip",
    "C123_shortest_round_trip_counts",
    "C123_slack_of_33ms_refuted",
    "C123_long_fat_link_overflows"
   ],
   "note": "The limit is one smallest round trip's worth, the 33 ms of slack are lost (0.033333 is added to a number of bytes): refuted, with the exact limit as a theorem. Conversion overflows when bandwidth times round trip time reaches 2^31."
  },
  {
   "property": "C124",
   "status": "partial",
   "theorems": [
    "C124_nothing_outstanding_nothing_held_back_partial",
    "C124_late_answer_stalls_refuted",
    "C124_slow_handshake_stalls_refuted"
   ],
   "note": "Proved for answers and handshake messages that come within 2^31 microseconds; refuted without, two ways: an answer after 36 minutes, or 36 to 71 minutes between two messages of the handshake, and the client is never sent a frame again."
  },
  {
   "property": "C125",
   "status": "partial",
   "theorems": [
    "C125_ratings_order_formats",
    "C125_cursor_ratings_order_formats",
    "C125_best_candidate_keeps_the_colours",
    "C125_own_format_is_deep_enough_refuted"
   ],
   "note": "Ratings as exact fractions. The order theorem is full for little-endian formats; 16 bit formats announced with seven bits per colour make the server rate its own format below 24 bit ones (refuted)."
  },
  {
   "property": "C126",
   "status": "partial",
   "theorems": [
    "C126_zero_for_unusable_only",
    "C126_cursor_zero_for_unusable_only_partial",
    "C126_big_endian_cursor_refuted",
    "C126_usable_when_transformed_refuted"
   ],
   "note": "Proved exactly for framebuffers, for cursors with little-endian formats. Refuted: alpha of big-endian formats is not seen although the mask could be read; formats without pixman format, or big-endian ones, are rated above 0 and stop the server when transformed."
  },
  {
   "property": "C127",
   "status": "partial",
   "theorems": [
    "C127_frames_are_handed_out_once_partial",
    "C127_frames_are_handed_out_once_refuted",
    "C127_update_ends_once_refuted",
    "C127_no_frame_is_lost_refuted",
    "C127_client_starves_refuted",
    "C127_encoder_is_destroyed_refuted"
   ],
   "note": "C127_frames_are_handed_out_once_partial covers all runs in which works start (for Tight also: the first job fails to start) and no send fails half way; the other cases are refuted with witnesses."
  },
  {
   "property": "C128",
   "status": "partial",
   "theorems": [
    "C128_frames_keep_their_time_partial",
    "C128_frames_keep_their_time_refuted"
   ],
   "note": "Proved for Raw and ZRLE without this restriction, for Tight when no frame begins while another is handed over; refuted for Tight otherwise."
  },
  {
   "property": "C129",
   "status": "partial",
   "theorems": [
    "C129_ping_counts_what_is_left",
    "C129_ping_carries_size_partial",
    "C129_frame_counts_as_one_byte",
    "C129_ping_carries_size_refuted",
    "C129_no_frame_no_ping"
   ],
   "note": "C129_ping_counts_what_is_left gives the size exactly for an idle stream; the claim holds of frames that go out in one piece or not at all, and is refuted for the rest."
  },
  {
   "property": "C130",
   "status": "partial",
   "theorems": [
    "C130_screen_shows_picture_partial",
    "C130_marked_pixel_is_shown_partial",
    "C130_screen_shows_picture_refuted"
   ],
   "note": "Partial: no frame may be refused by the encoder or thrown away (refuted otherwise: after a change of encodings or of the pixel format the frame under way is thrown away with its damage, and the client keeps the old picture); nested reads after fences; pixels beyond 32767."
  },
  {
   "property": "C131",
   "status": "partial",
   "theorems": [
    "C131_server_sends_its_key",
    "C131_client_key_is_taken_partial",
    "C131_server_proves_its_key_partial",
    "C131_client_must_prove_its_key_partial",
    "C131_no_credentials_without_proof_partial",
    "C131_client_proves_what_was_sent_refuted"
   ],
   "note": "Partial: the client's key must be sent with the size of its modulus; refuted otherwise (the server hashes a normalised key message, not the one the client sent, and disconnects the client)."
  },
  {
   "property": "C132",
   "status": "partial",
   "theorems": [
    "C132_fence_blocks_partial",
    "C132_waiting_client_is_not_heard",
    "C132_client_is_heard_after_answer_partial",
    "C132_long_payload_is_not_copied",
    "C132_client_is_heard_after_answer_refuted",
    "C132_fence_blocks_refuted"
   ],
   "note": "Partial: only BLOCK_BEFORE|BLOCK_AFTER blocks (with SYNC_NEXT as well, later messages are acted on at once: refuted); messages kept while the client waited are not acted on until more bytes arrive (refuted)."
  },
  {
   "property": "C133",
   "status": "partial",
   "theorems": [
    "C133_credentials_arrive_partial",
    "C133_any_client_key_is_safe",
    "C133_same_secret",
    "C133_credentials_arrive_refuted"
   ],
   "note": "Partial: one public key in 256 begins with a zero byte and the server aborts (refuted by the secret 5). MD5 and AES are parameters. Primality of the modulus is not used and not proved."
  },
  {
   "property": "C134",
   "status": "partial",
   "theorems": [
    "C134_key_file_sets_the_key_partial",
    "C134_only_key_files_are_accepted",
    "C134_key_file_sets_the_key_refuted",
    "C134_file_is_closed_partial",
    "C134_file_is_closed_refuted",
    "C134_failed_call_changes_nothing_refuted",
    "C134_client_aborts_after_failed_call"
   ],
   "note": "Partial: files with CRLF line ends or text before the first line are refused; an empty file stays open; a failed call discards the old key, after which a client choosing RSA-AES aborts the process (all as theorems). nettle's DER parser is a parameter."
  },
  {
   "property": "C135",
   "status": "partial",
   "theorems": [
    "C135_listen_tcp",
    "C135_first_address",
    "C135_listen_unix_partial",
    "C135_listen_unix_refuted",
    "C135_second_attempt_fails",
    "C135_nothing_left_behind_partial",
    "C135_nothing_left_behind_refuted",
    "C135_open",
    "C135_given_descriptor_is_closed",
    "C135_only_own_names_are_removed_refuted",
    "C135_success_means_answering_refuted"
   ],
   "note": "Partial: a failed listen on a Unix socket of the normal type leaves its name behind; an empty path is bound in the abstract name space; deleting a server removes a name that belongs to another socket by then; a handler that aml refuses is reported as success (refuted theorems). The kernel's part is modelled in Listen_Model."
  },
  {
   "property": "C136",
   "status": "partial",
   "theorems": [
    "C136_get_server_is_the_last",
    "C136_get_server_partial",
    "C136_feeding_concerns_one_server",
    "C136_displays_exist_as_long_as_needed",
    "C136_no_failure_partial",
    "C136_no_failure_refuted",
    "C136_feeding_after_deletion_fails",
    "C136_get_server_refuted",
    "C136_clients_see_the_display",
    "C136_connecting_changes_no_client",
    "C136_fed_buffers_reach_clients_partial",
    "C136_requests_are_answered",
    "C136_pending_updates_follow",
    "C136_fed_buffers_reach_clients_refuted",
    "C136_removed_displays_are_silent_refuted"
   ],
   "note": "The reference count is exact for all sequences, and clients only ever see the last buffer of the display of their server. False in general: feeding a display after its server was deleted is a use after free, so is deleting a server that encodes a frame when the application has dropped the display; feeding a display that was never added fails an assertion; a server without display crashes on the next connection; nvnc_display_get_server returns deleted servers; of two servers showing one display only the last gets its frames; a removed display still triggers updates. The _partial theorems are for programs that avoid these. nvnc_display_get_server gives the server the display was added to last (C136_get_server_is_the_last); this is the right one as long as it is neither removed nor added elsewhere and the server is there (C136_get_server_partial)."
  },
  {
   "property": "C137",
   "status": "partial",
   "theorems": [
    "C137_screen_shows_the_frame_partial",
    "C137_turning_alone_is_missed",
    "C137_screen_shows_the_frame_refuted",
    "C137_nothing_old_is_seen",
    "C137_turned_unknown_formats_abort"
   ],
   "note": "False: the refinery hashes the bytes of the buffer only, so a buffer with the same bytes and size but another transform or format damages nothing and the client keeps the old picture (C137_turning_alone_is_missed for every hash). Proved for frames that keep transform and format while they keep the size, and hashes that tell the tiles apart."
  },
  {
   "property": "C138",
   "status": "partial",
   "theorems": [
    "C138_name_is_the_one_approved_partial",
    "C138_approved_names_are_known_refuted"
   ],
   "note": "Refuted for the empty name: a user without a name who was approved reads as nobody. Partial: all other names."
  },
  {
   "property": "C139",
   "status": "partial",
   "theorems": [
    "C139_viewer_reads_every_frame_partial",
    "C139_viewer_reads_every_frame_refuted",
    "C139_thrown_frames_stay_in_the_stream",
    "C139_fence_clients_lose_nothing"
   ],
   "note": "Refuted: a frame thrown away because the format changed (client without Fence) has already gone through the compressor. Partial: clients that lost no frame of that encoding; those naming Fence lose none."
  },
  {
   "property": "C140",
   "status": "partial",
   "theorems": [
    "C140_no_encoder_is_used_after_it_is_gone_partial",
    "C140_no_encoder_is_used_after_it_is_gone_refuted",
    "C140_damage_clients_are_counted",
    "C140_every_encoder_is_freed"
   ],
   "note": "Refuted when a first ZRLE or Tight encoder cannot be allocated: encoder_ref(NULL). Partial: with memory for these."
  },
  {
   "property": "C141",
   "status": "partial",
   "theorems": [
    "C141_viewer_reads_forward",
    "C141_raw_frames",
    "C141_zrle_frames",
    "C141_tight_frames",
    "C141_h264_frames",
    "C141_cursors",
    "C141_whole_messages_partial",
    "C141_whole_messages_refuted"
   ],
   "note": "Partial: excludes runs in which a lock-light state was sent in the VMware format (then refuted: three stray bytes), frames of more than 65533 rectangles (C45) and texts of more than 2000000000 bytes. Picture readability is an assumption of the session theorem, discharged per encoder by C141_raw_frames, C141_zrle_frames, C141_tight_frames, C141_h264_frames and C141_cursors."
  },
  {
   "property": "C142",
   "status": "proved",
   "theorems": [
    "C142_raw_viewer_shows_picture",
    "C142_raw_viewer_shows_marked"
   ],
   "note": "Composition of C22, C130 and C141, down to the bytes; the conditions are those for which C130 and C141 hold and are part of the statement."
  },
  {
   "property": "C143",
   "status": "partial",
   "theorems": [
    "C143_device_found",
    "C143_willing_device_used",
    "C143_files",
    "C143_destroyed_clean",
    "C143_nothing_left_refuted",
    "C143_nothing_left_partial"
   ],
   "note": "nothing left behind is refuted (mappings leak when setting up fails) and holds if no device is found"
  },
  {
   "property": "C144",
   "status": "partial",
   "theorems": [
    "C144_any_device_refuted",
    "C144_formats_overrun",
    "C144_no_steps",
    "C144_any_device_partial"
   ],
   "note": "refuted; holds for devices whose answers fit"
  },
  {
   "property": "C145",
   "status": "partial",
   "theorems": [
    "C145_format_listed_partial",
    "C145_format_listed_refuted",
    "C145_bytes_reversed",
    "C145_layout_refuted"
   ],
   "note": "listed: proved for all drivers but bcm2835; layout: refuted, always the reverse"
  },
  {
   "property": "C146",
   "status": "proved",
   "theorems": [
    "C146_zrle_viewer_shows_picture",
    "C146_zrle_viewer_shows_marked"
   ],
   "note": "all encoder frames of the run made by one encoder"
  },
  {
   "property": "C147",
   "status": "proved",
   "theorems": [
    "C147_tight_viewer_shows_picture",
    "C147_tight_viewer_shows_marked"
   ],
   "note": "without JPEG; all encoder frames of the run made by one encoder"
  },
  {
   "property": "C148",
   "status": "proved",
   "theorems": [
    "C148_viewer_shows_picture",
    "C148_viewer_shows_marked"
   ],
   "note": "pixel format kept; without JPEG"
  },
  {
   "property": "C149",
   "status": "partial",
   "theorems": [
    "C149_failed_attempts_give_back_partial",
    "C149_codec_failure_keeps_the_device",
    "C149_failed_attempts_give_back_refuted",
    "C149_devices_pile_up",
    "C149_destroyed_encoders_give_back"
   ],
   "note": "false when the codec context cannot be allocated or opened: the filter graph and the device stay open"
  },
  {
   "property": "C150",
   "status": "partial",
   "theorems": [
    "C150_first_render_node_is_used",
    "C150_no_render_node_reads_garbage",
    "C150_no_render_node_refuted"
   ],
   "note": "second half false: -1 is returned as a bool, so the caller goes on with an uninitialised path"
  },
  {
   "property": "C151",
   "status": "proved",
   "theorems": [
    "C151_encoders_have_frames",
    "C151_packets_and_descriptors",
    "C151_frames_are_safe"
   ],
   "note": "that FFmpeg lets go of a frame by the time it is freed is assumed"
  },
  {
   "property": "C152",
   "status": "partial",
   "theorems": [
    "C152_readers_find_a_mapping_partial",
    "C152_refined_feeds_are_safe",
    "C152_hardware_alone_is_safe",
    "C152_two_encoders_refuted",
    "C152_v4l2_refuted",
    "C152_giving_back_breaks_readers",
    "C152_failed_mappings_are_not_noticed",
    "C152_failed_mapping_refuted",
    "C152_unknown_formats_divide_by_zero",
    "C152_unknown_format_refuted"
   ],
   "note": "False in general: two encoders starting on an unmapped buffer can read at NULL; the V4L2 encoder unmaps a buffer others are reading; failed mappings are not noticed by refinement and turning; unknown formats divide by zero. Proved for undisturbed executions, which includes all where each feed is refined and V4L2 is not used, and all where only V4L2 is used."
  },
  {
   "property": "C153",
   "status": "partial",
   "theorems": [
    "C153_mappings_are_undone_partial",
    "C153_mappings_are_undone_refuted"
   ],
   "note": "False when two encoders map at the same time: the first handle is overwritten. Proved for undisturbed executions."
  },
  {
   "property": "C154",
   "status": "partial",
   "theorems": [
    "C154_pixels_are_found_partial",
    "C154_other_pitches_miss",
    "C154_pixels_are_found_refuted"
   ],
   "note": "False when the distance is not a multiple of the size of a pixel (RG24, BG24): all rows but the first are read too early. Proved otherwise."
  },
  {
   "property": "C155",
   "status": "proved",
   "theorems": [
    "C155_viewer_sees_what_is_fed",
    "C155_viewer_sees_what_is_marked"
   ],
   "note": "Composes C51, C137, C130 and C148. Conditions of C137 (no turning of buffers of one size, hashes that tell tiles apart) and of C148 are part of the statement."
  },
  {
   "property": "C156",
   "status": "partial",
   "theorems": [
    "C156_address_is_logged_partial",
    "C156_other_sockets_log_garbage",
    "C156_gone_clients_log_garbage",
    "C156_quiet_logs_are_safe",
    "C156_address_is_logged_refuted"
   ],
   "note": "Holds for clients over IP that are still connected; refuted for UNIX sockets and for clients that are gone (uninitialised reads)."
  },
  {
   "property": "C157",
   "status": "proved",
   "theorems": [
    "C157_all_streams_carry_the_same",
    "C157_every_stream_can_carry",
    "C157_fed_is_seen_through_any_stream",
    "C157_marked_is_seen_through_any_stream"
   ],
   "note": "Messages handed over with stream_send; replies produced while sending (NTP) are not covered."
  },
  {
   "property": "C158",
   "status": "partial",
   "theorems": [
    "C158_websocket_types_partial",
    "C158_encrypted_cannot_be_read",
    "C158_encrypted_cannot_be_heard",
    "C158_encryption_locks_out_websockets",
    "C158_websocket_types_refuted"
   ],
   "note": "Holds for the types without encryption (none, Apple DH); refuted for RSA-AES and VeNCrypt."
  },
  {
   "property": "C159",
   "status": "partial",
   "theorems": [
    "C159_room_for_messages_partial",
    "C159_long_offers_end_the_connection",
    "C159_waiting_for_a_fence_ends_the_connection",
    "C159_room_for_messages_refuted"
   ],
   "note": "False of the code in two ways, both proved for all cuts: offering 1024 or more encodings, and sending 4096 bytes while waiting for a fence, make the server see the end of the connection. The partial theorem is for messages that fit and clients that do not wait."
  },
  {
   "property": "C160",
   "status": "partial",
   "theorems": [
    "C160_messages_through_any_stream_partial",
    "C160_streams_make_no_difference_partial",
    "C160_events_through_any_stream_partial",
    "C160_messages_through_any_stream_refuted"
   ],
   "note": "Partial: the pieces are restricted as in C08, C16 and C101, where the streams themselves fail; under these restrictions the final state of the client is the same for all four. Refuted: a cut in a masked payload turns one key into another."
  },
  {
   "property": "C161",
   "status": "partial",
   "theorems": [
    "C161_whole_connection_partial",
    "C161_events_after_the_handshake_partial",
    "C161_no_input_without_authentication",
    "C161_whole_connection_refuted"
   ],
   "note": "Proved for bytes and pieces as in C160 and parts of the handshake that do not change the stream; refuted across a change of the stream, where it matters how the bytes are cut (C75, C119). The part about authentication holds without these conditions."
  },
  {
   "property": "C162",
   "status": "proved",
   "theorems": [
    "C162_credentials_are_kept_and_given_back",
    "C162_nothing_is_left",
    "C162_credentials_are_accepted_once",
    "C162_sessions_show_the_accepted_certificate"
   ],
   "note": "all sequences of calls; a call on a server that is not open is outside"
  },
  {
   "property": "C163",
   "status": "partial",
   "theorems": [
    "C163_ffmpeg_messages_partial",
    "C163_levels_come_back",
    "C163_ffmpeg_messages_refuted",
    "C163_other_levels_are_traces"
   ],
   "note": "false: VERBOSE messages are passed on as information although the level told to FFmpeg leaves them out, and messages with colour bits or in-between levels count as trace (refuted); proved for every documented level other than VERBOSE"
  },
  {
   "property": "C164",
   "status": "partial",
   "theorems": [
    "C164_ordinary_clients_do_no_harm_partial",
    "C164_little_is_kept",
    "C164_ordinary_clients_do_no_harm_refuted"
   ],
   "note": "Proved for ordinary messages: those of RFC 6143 with any contents and cut text of up to ten million bytes, continuous updates, QEMU keys below code 254, desktop sizes and time. Missing: fences, extended clipboard (negative length), unknown types and codes, where it is false (C37, C39, C44); and clients that stop listing the desktop size encodings, where it is false by the witness given here."
  },
  {
   "property": "C165",
   "status": "partial",
   "theorems": [
    "C165_only_what_was_listed_is_sent_partial",
    "C165_only_what_was_listed_is_sent_refuted"
   ],
   "note": "Proved with the exception of lock lights for a client that lists only VMware's encoding; refuted without."
  },
  {
   "property": "C166",
   "status": "partial",
   "theorems": [
    "C166_callbacks_may_call_the_library_partial",
    "C166_callbacks_may_call_the_library_refuted",
    "C166_silent_callbacks"
   ],
   "note": "False for nvnc_client_close: C166_callbacks_may_call_the_library_refuted has a client that is closed at the press of a key and then used. The partial theorem covers the other calls, for ordinary clients as in C164. C166_silent_callbacks ties the model to Msg_Model.v."
  },
  {
   "property": "C167",
   "status": "proved",
   "theorems": [
    "C167_clients_do_not_disturb_each_other",
    "C167_failures_have_one_cause",
    "C167_any_number_of_ordinary_clients"
   ],
   "note": "For clients that have finished the handshake; nvnc_send_cut_text is not among the events (see C89, C90). Failing alone is possible (C164), the conditions of C167_any_number_of_ordinary_clients are those of C164."
  },
  {
   "property": "C168",
   "status": "partial",
   "theorems": [
    "C168_query_makes_no_difference_partial",
    "C168_query_is_accepted_partial",
    "C168_root_with_query_is_refused",
    "C168_query_makes_no_difference_refuted",
    "C168_padded_token_refuted"
   ],
   "note": "False: a query right after a slash (/?token=abc) and values with an equals sign (base64 padding) make the server refuse the request; proved for all other queries of non-empty names and values, for every path that does not end in a slash."
  },
  {
   "property": "C169",
   "status": "proved",
   "theorems": [
    "C169_only_authentic_messages_are_acted_on",
    "C169_nothing_from_an_altered_message_on",
    "C169_altered_message_ends_the_connection",
    "C169_close_frame_ends_the_connection",
    "C169_messages_read_with_an_altered_one_can_be_lost"
   ],
   "note": "Messages taken by the same read as an altered one are lost with it (C169_messages_read_with_an_altered_one_can_be_lost)."
  },
  {
   "property": "C170",
   "status": "proved",
   "theorems": [
    "C170_colours_of_the_picture",
    "C170_colours_of_what_is_marked",
    "C170_colours_of_what_is_fed"
   ],
   "note": "Colours are read with the fields of the formats only (Pixels_Spec), no conversion function of the model is used in the statement. Formats of 32 bits with depth at most 24 are those whose fields lie in the low or the high three bytes, as RFB requires for CPIXEL; JPEG rectangles of Tight are C72."
  },
  {
   "property": "C171",
   "status": "proved",
   "theorems": [
    "C171_application_reads_the_request",
    "C171_not_asked_otherwise",
    "C171_any_screens_any_index",
    "C171_same_as_the_handler"
   ],
   "note": "malloc is assumed to succeed; the layout is freed when the callback returns, an application that keeps the pointer is outside of the model."
  },
  {
   "property": "C172",
   "status": "partial",
   "theorems": [
    "C172_secret_is_random_partial",
    "C172_keys_are_random_partial",
    "C172_missing_bytes_are_zero",
    "C172_keys_without_random_numbers",
    "C172_secret_of_unwritten_memory",
    "C172_numbers_are_random_refuted"
   ],
   "note": "False when getrandom fails or is cut short: its result is not looked at (src/crypto/random.c:26). C172_numbers_are_random_refuted: an RSA-AES connection is upgraded with keys made with zeros as the server's number, and the Diffie-Hellman secret is read from unset stack memory. Universal descriptions of both: C172_missing_bytes_are_zero, C172_keys_without_random_numbers, C172_secret_of_unwritten_memory. Missing in the partial theorems: kernels that do not answer in full, and the numbers Nettle draws itself with the same function (RSA key generation and padding)."
  },
  {
   "property": "C173",
   "status": "proved",
   "theorems": [
    "C173_answer_never_changes",
    "C173_answer_is_of_the_first_try",
    "C173_asking_leaves_no_encoder",
    "C173_at_most_one_try",
    "C173_answer_can_be_outdated"
   ],
   "note": "This is what lets Msg_Model take the answer as a constant of the environment. C173_answer_can_be_outdated: the answer need not be true of the time of the question or of a client's size; an encoder that works for smaller pictures only is never used."
  },
  {
   "property": "C174",
   "status": "partial",
   "theorems": [
    "C174_buffers_are_released_partial",
    "C174_what_was_taken_is_released",
    "C174_given_when_closed_is_lost",
    "C174_buffers_are_released_refuted"
   ],
   "note": "False of buffers given to a closed stream: stream_tcp_send returns -1 without releasing them (src/stream/tcp.c:220-221), and stream_write, which made the buffer, does not either (src/stream/interface.c:46-51). C174_buffers_are_released_refuted: the peer is gone (EPIPE) and something more is written. C174_given_when_closed_is_lost: so for everything given later. Missing in the partial theorem: that, and requests with callbacks; for these C174_what_was_taken_is_released."
  }
 ]
}