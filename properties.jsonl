{"id": "C01", "title": "Base64 round trip and RFC 4648 conformance", "statement": "Encoding any byte string and decoding the result returns the same byte string and its length; the encoded text is the RFC 4648 text (standard alphabet, '=' padding), NUL terminated, and occupies exactly BASE64_ENCODED_SIZE(n) bytes.", "quantifier": "every byte string of every length", "why_tests_cant": "Unit tests cover six short strings; the claim ranges over every string and both padding cases at every length.", "anchors": ["src/base64.c:base64_encode", "src/base64.c:base64_decode", "include/base64.h:BASE64_ENCODED_SIZE"]}
{"id": "C02", "title": "Base64 decoder accepts exactly the alphabet and stays in its buffer", "statement": "Decoding a C string fails (-1) exactly when it contains a character outside the standard/URL-safe alphabets and '='; otherwise it returns the bytes denoted by the characters before the first '=', which never number more than BASE64_DECODED_MAX_SIZE of the text length.", "quantifier": "every NUL-terminated string", "why_tests_cant": "All 256^n strings cannot be enumerated; out-of-bounds writes depend on the length residue.", "anchors": ["src/base64.c:base64_decode", "src/base64.c:base64_is_valid", "include/base64.h:BASE64_DECODED_MAX_SIZE"]}
{"id": "C03", "title": "Growable buffer behaves as a byte list", "statement": "After any sequence of append, append-zero, assign, reserve and clear operations the buffer holds exactly the bytes a plain list would hold, and every byte written lies inside the allocated capacity.", "quantifier": "every sequence of buffer operations with every payload", "why_tests_cant": "Growth boundaries depend on the whole history of sizes.", "anchors": ["src/vec.c:vec_append", "src/vec.c:vec_append_zero", "src/vec.c:vec_assign", "src/vec.c:vec_reserve", "src/vec.c:vec__grow", "include/vec.h:vec_clear"]}
{"id": "C04", "title": "WebSocket frames sent by the server are well-formed and unambiguous", "statement": "The header the server writes for a frame (any opcode, FIN bit and payload length up to 2^64-1) is the minimal RFC 6455 header, at most 10 bytes long, and parsing it followed by arbitrary payload bytes returns the same FIN, opcode, length and exactly the header length.", "quantifier": "every FIN/opcode/length, every following byte sequence", "why_tests_cant": "Three length classes with 2^64 lengths; boundaries 125/126/65535/65536 and beyond.", "anchors": ["src/stream/ws/framing.c:ws_write_frame_header", "src/stream/ws/framing.c:ws_parse_frame_header", "src/stream/ws/ws.c:stream_ws_send"]}
{"id": "C05", "title": "WebSocket header parser is exact on client headers", "statement": "For every RFC 6455 header (masked or not, any of the three length forms) the parser asks for more data on every strict prefix and, given the whole header and any continuation, returns exactly the encoded fields including the masking key.", "quantifier": "every header, every split point, every continuation", "why_tests_cant": "Every split point of every header form with arbitrary trailing bytes.", "anchors": ["src/stream/ws/framing.c:ws_parse_frame_header"]}
{"id": "C06", "title": "Writing a masked WebSocket header places the key after the length", "statement": "When a frame header with the mask bit set is written, parsing it returns the same masking key, length and opcode.", "quantifier": "every header with mask bit set", "why_tests_cant": "Needs every key and length; no test writes a masked header.", "anchors": ["src/stream/ws/framing.c:ws_write_frame_header"]}
{"id": "C07", "title": "WebSocket payload masking is undone exactly", "statement": "A client payload masked with any 4-byte key and handed over in one piece is delivered to the server as the original bytes, for every length, and writes exactly that many bytes.", "quantifier": "every key, every payload", "why_tests_cant": "Payload length residues mod 4 and all keys.", "anchors": ["src/stream/ws/framing.c:ws_copy_payload", "src/stream/ws/framing.c:ws_apply_mask"]}
{"id": "C08", "title": "WebSocket input does not depend on network segmentation", "statement": "The bytes delivered to the VNC layer from a sequence of client data frames are the concatenated unmasked payloads, no matter how the network splits the byte stream into reads.", "quantifier": "every frame sequence, every split into reads", "why_tests_cant": "The number of segmentations is exponential in the length of the stream.", "anchors": ["src/stream/ws/ws.c:stream_ws_read_ready", "src/stream/ws/ws.c:stream_ws_read_frame", "src/stream/ws/ws.c:stream_ws_process_payload", "src/stream/ws/ws.c:stream_ws_copy_payload"]}
{"id": "C09", "title": "A WebSocket ping is answered by a pong with the same application data", "statement": "For each ping frame the server sends one pong whose payload is the ping's unmasked payload and reads only bytes it has received.", "quantifier": "every ping payload, every mask, every buffer state", "why_tests_cant": "Depends on how much of the frame is in the buffer when it is handled.", "anchors": ["src/stream/ws/ws.c:stream_ws_process_ping"]}
{"id": "C10", "title": "WebSocket handshake header normalisation terminates", "statement": "Lower-casing a header value and removing its white space terminates for every header value a client can send and yields the value with blanks removed and letters lower-cased.", "quantifier": "every header value", "why_tests_cant": "Non-termination on some inputs is not observable by finite tests of others.", "anchors": ["src/stream/ws/handshake.c:tolower_and_remove_ws", "src/stream/ws/handshake.c:ws_handshake"]}
{"id": "C11", "title": "HTTP upgrade request parser stays inside its field table", "statement": "Parsing any request text never writes outside the fixed-size header-field table.", "quantifier": "every request text, any number of header lines", "why_tests_cant": "Number of header lines is unbounded and attacker-controlled.", "anchors": ["src/stream/ws/http.c:http__field_key", "src/stream/ws/http.c:http__field_value", "include/stream/http.h:HTTP_FIELD_INDEX_MAX"]}
{"id": "C12", "title": "TCP stream transmits queued payloads in order without loss or duplication", "statement": "Whatever the kernel accepts per write call (any partial count, would-block, any number of flushes), the bytes put on the wire are always a prefix of the concatenation of the payloads in the order they were queued, and the rest of that concatenation is still queued.", "quantifier": "every schedule of sends and partial writes", "why_tests_cant": "Partial-write schedules are unbounded and kernel-dependent.", "anchors": ["src/stream/tcp.c:stream_tcp__flush", "src/stream/tcp.c:stream_tcp_send", "src/stream/tcp.c:stream_tcp_exec_and_send"]}
{"id": "C13", "title": "Every accepted send completes exactly once", "statement": "The completion callback of each queued request runs exactly once: with 'done' only after all its bytes were written, in queue order; with 'failed' only if the stream is closed before that.", "quantifier": "every schedule of sends, partial writes and close", "why_tests_cant": "Exactly-once over all interleavings of close and partial write.", "anchors": ["src/stream/tcp.c:stream_tcp__flush", "src/stream/tcp.c:stream_tcp_close", "src/stream/common.c:stream_req__finish"]}
{"id": "C14", "title": "RSA-AES stream framing round trip", "statement": "For any payload handed to the encrypted stream, the peer that decrypts and concatenates the messages obtains exactly that payload; every message carries at most 8192 payload bytes with its big-endian length, ciphertext and 16-byte tag.", "quantifier": "every payload of every length, every key stream", "why_tests_cant": "Payload lengths around multiples of 8192 and arbitrary ciphertexts.", "anchors": ["src/stream/rsa-aes.c:stream_rsa_aes_send", "src/stream/rsa-aes.c:stream_rsa_aes_read_message", "src/stream/rsa-aes.c:stream_rsa_aes_parse_header"]}
{"id": "C15", "title": "AES-EAX nonces never repeat within a session", "statement": "In one direction of one session, the nonces used for any two distinct messages among the first 2^128 differ.", "quantifier": "every pair of message indices below 2^128", "why_tests_cant": "Cannot send 2^64 messages in a test; carry between the two counter words is the issue.", "anchors": ["src/crypto/nettle/cipher.c:crypto_aes_eax_update_nonce", "src/crypto/nettle/cipher.c:crypto_aes256_eax_update_nonce"]}
{"id": "C16", "title": "Encrypted input always makes progress", "statement": "A peer message of any length the 16-bit length field can express is eventually delivered once all its bytes have arrived.", "quantifier": "every message length, every split into reads", "why_tests_cant": "Requires all 65536 lengths and all chunkings.", "anchors": ["src/stream/rsa-aes.c:stream_rsa_aes_read", "src/stream/rsa-aes.c:stream_rsa_aes_read_message"]}
{"id": "C17", "title": "ZRLE tiles decode to the pixels that were encoded", "statement": "For every tile of every size up to 64x64, every pixel content and every pixel format with 1 to 4 byte CPIXELs, a decoder written from RFC 6143 applied to the bytes of the tile returns exactly the tile's CPIXELs and consumes exactly those bytes.", "quantifier": "every tile size, every pixel content, every supported CPIXEL size", "why_tests_cant": "Pixel contents, palette sizes and run lengths are combinatorially unbounded; run-length escapes occur every 255 pixels.", "anchors": ["src/enc/zrle.c:zrle_encode_tile", "src/enc/zrle.c:zrle_get_tile_palette", "src/enc/zrle.c:zrle_encode_packed_tile", "src/enc/zrle.c:zrle_encode_unichrome_tile", "src/enc/zrle.c:encode_run_length"]}
{"id": "C18", "title": "ZRLE never overruns its palette scratch buffer", "statement": "For every tile and every pixel format a client may request, converting the palette stays inside the on-stack palette buffer.", "quantifier": "every client pixel format and every tile", "why_tests_cant": "Requires a format with 4-byte CPIXELs together with more than twelve colours.", "anchors": ["src/enc/zrle.c:zrle_encode_packed_tile", "src/server.c:on_client_set_pixel_format"]}
{"id": "C19", "title": "ZRLE/raw tiling covers each damaged rectangle exactly once", "statement": "The tiles of a rectangle, in the order sent, are at most 64x64, lie inside the rectangle, are pairwise disjoint and cover every pixel of it.", "quantifier": "every rectangle", "why_tests_cant": "All widths and heights, including non-multiples of 64.", "anchors": ["src/enc/zrle.c:zrle_encode_box"]}
{"id": "C20", "title": "Tight compact length round trip", "statement": "The 1-3 byte compact length written before Tight data decodes, per the RFB specification, to the length of that data for every length below 2^22, and is the shortest form.", "quantifier": "every length below 2^22", "why_tests_cant": "Four million lengths, three classes.", "anchors": ["src/enc/tight.c:tight_encode_size"]}
{"id": "C21", "title": "Tight sends every damaged pixel and counts its rectangles", "statement": "The framebuffer is partitioned into tiles, every damaged pixel lies in a tile that is sent, each sent tile lies inside the framebuffer, and the rectangle count of the frame equals the number of rectangles emitted.", "quantifier": "every framebuffer size and damage region", "why_tests_cant": "All sizes and regions.", "anchors": ["src/enc/tight.c:tight_apply_damage", "src/enc/tight.c:tight_encoder_resize", "src/enc/tight.c:tight_tile_width", "src/enc/tight.c:tight_finish_tile", "src/enc/tight.c:tight_schedule_encoding_jobs"]}
{"id": "C22", "title": "Raw encoding transmits each pixel of each rectangle at its place", "statement": "The raw encoder emits, for each damaged rectangle, a header with that rectangle and exactly width*height pixels in row order, each the conversion of the framebuffer pixel at that position; the number of rectangles is the one announced.", "quantifier": "every region, every framebuffer, every stride", "why_tests_cant": "All geometries and contents.", "anchors": ["src/enc/raw.c:raw_encode_box", "src/enc/raw.c:raw_encode_frame", "src/enc/util.c:encode_rect_head"]}
{"id": "C23", "title": "Pixel conversion keeps channels apart and preserves exact channels", "statement": "Converting a 32-bit pixel between two true-colour formats yields, for each channel, the source value shifted from the source channel width to the destination channel width, unaffected by the other channels and by padding bits; converting to the same layout preserves the colour.", "quantifier": "every 32-bit pixel value and every pair of well-formed formats", "why_tests_cant": "2^32 pixel values times all format pairs.", "anchors": ["src/pixels.c:pixel32_to_cpixel", "src/pixels.c:pixel_to_cpixel"]}
{"id": "C24", "title": "Advertised pixel formats have disjoint channels inside the pixel", "statement": "For every framebuffer format the server accepts, the red, green and blue fields of the derived RFB pixel format do not overlap, fit in bits-per-pixel, and depth covers them.", "quantifier": "every supported fourcc", "why_tests_cant": "Needs the bit-level reading of each advertised format, not a spot check.", "anchors": ["src/pixels.c:rfb_pixfmt_from_fourcc"]}
{"id": "C25", "title": "CPIXEL size agrees with the RFB specification", "statement": "The number of bytes per compressed pixel is 3 exactly when bits-per-pixel is 32 and depth at most 24, otherwise bits-per-pixel/8, and a pixel of that format always fits.", "quantifier": "every pixel format", "why_tests_cant": "All 2^16 bpp/depth pairs.", "anchors": ["src/enc/util.c:calc_bytes_per_cpixel"]}
{"id": "C26", "title": "Output transforms map damage to where the pixels go", "statement": "For each of the eight output transforms and every buffer size, a pixel of the buffer lies in the damage region iff the pixel of the transformed image that is sampled from it lies in the transformed damage region, and the transformed region lies in the transformed dimensions.", "quantifier": "eight transforms, every width/height, every region, every pixel", "why_tests_cant": "Region algebra over all boxes; sign and off-by-one errors show only for some sizes.", "anchors": ["src/transform-util.c:nvnc_transform_region", "src/transform-util.c:nvnc_transform_to_pixman_transform", "src/transform-util.c:nvnc_transform_dimensions"]}
{"id": "C27", "title": "Bandwidth estimator uses exactly the most recent sixteen samples", "statement": "After any sequence of samples, the estimate is a function of the last at most sixteen samples and the minimum RTT only, in arrival order.", "quantifier": "every sequence of samples", "why_tests_cant": "History-dependent ring index arithmetic.", "anchors": ["src/bandwidth.c:bwe_feed", "src/bandwidth.c:bwe_update", "src/bandwidth.c:bwe_get_sample"]}
{"id": "C28", "title": "Bandwidth estimator is defined on all measurements", "statement": "Feeding any measurements that a client can cause never divides by zero or overflows.", "quantifier": "every sequence of samples and RTT values", "why_tests_cant": "Depends on coincidences of timestamps.", "anchors": ["src/bandwidth.c:bwe_update_estimate_non_congested", "src/bandwidth.c:bwe_update_estimate_congested"]}
{"id": "C29", "title": "Framebuffer references and holds are balanced", "statement": "A framebuffer is destroyed exactly when the last reference is dropped, and its release callback runs exactly when the last hold is released; never both early nor twice.", "quantifier": "every sequence of ref/unref/hold/release", "why_tests_cant": "All interleavings of owners.", "anchors": ["src/fb.c:nvnc_fb_ref", "src/fb.c:nvnc_fb_unref", "src/fb.c:nvnc_fb_hold", "src/fb.c:nvnc_fb_release"]}
{"id": "C30", "title": "Framebuffer pool never hands out a busy or mis-sized buffer", "statement": "Every buffer acquired from a pool has the pool's current geometry and format and is not currently held by anyone else who acquired it; buffers of an old geometry are never handed out after a resize.", "quantifier": "every sequence of acquire/release/resize", "why_tests_cant": "Depends on releases arriving after resizes.", "anchors": ["src/fb_pool.c:nvnc_fb_pool_acquire", "src/fb_pool.c:nvnc_fb_pool_release", "src/fb_pool.c:nvnc_fb_pool_resize"]}
{"id": "C31", "title": "Framebuffer allocation is large enough for its pixels", "statement": "A successfully created framebuffer has room for stride*height pixels of its format.", "quantifier": "every width, height, stride and format", "why_tests_cant": "Overflow at sizes no test allocates.", "anchors": ["src/fb.c:nvnc_fb_new"]}
{"id": "C32", "title": "No access without authentication when authentication is required", "statement": "If the server was configured to require authentication, then in every message history a client reaches the initialised state only after the authentication callback returned true for credentials that client sent.", "quantifier": "every configuration and every sequence of client messages", "why_tests_cant": "All message sequences, including out-of-order and malformed ones.", "anchors": ["src/server.c:init_security_types", "src/server.c:is_allowed_security_type", "src/server.c:on_security_message", "src/auth/vencrypt.c:on_vencrypt_plain_auth_message", "src/auth/apple-dh.c:apple_dh_handle_response", "src/auth/rsa-aes.c:on_rsa_aes_credentials"]}
{"id": "C33", "title": "Credentials travel only over an encrypted channel when encryption is required", "statement": "If encryption is required, the authentication callback is only invoked after the connection was upgraded to TLS or RSA-AES, in every message history.", "quantifier": "every configuration with the encryption flag and every message sequence", "why_tests_cant": "All message sequences.", "anchors": ["src/server.c:init_security_types", "src/auth/vencrypt.c:on_vencrypt_subtype_message", "src/auth/rsa-aes.c:on_rsa_aes_challenge"]}
{"id": "C34", "title": "Credentials are handed to the callback exactly as sent", "statement": "The user name and password passed to the authentication callback are the bytes the client sent (up to the first NUL and 255 bytes), never bytes of anything else, and the parser consumes exactly the message.", "quantifier": "every message content and length", "why_tests_cant": "All lengths, in particular around 255/256 and combined lengths.", "anchors": ["src/auth/vencrypt.c:on_vencrypt_plain_auth_message", "src/auth/rsa-aes.c:on_rsa_aes_credentials"]}
{"id": "C35", "title": "RSA-AES challenge fits its buffer for every client key", "statement": "Whatever public key a not-yet-authenticated client presents, the encrypted challenge is written inside the buffer reserved for it.", "quantifier": "every client public key message that fits the receive buffer", "why_tests_cant": "Needs keys larger than 8176 bits.", "anchors": ["src/auth/rsa-aes.c:rsa_aes_send_challenge", "src/auth/rsa-aes.c:on_rsa_aes_public_key"]}
{"id": "C36", "title": "Client message handling does not depend on network segmentation", "statement": "For every stream of complete client messages of the fixed-size and length-prefixed kinds, the callbacks invoked and their arguments depend only on the bytes, not on how the network splits them.", "quantifier": "every message sequence, every segmentation", "why_tests_cant": "Exponentially many segmentations.", "anchors": ["src/server.c:try_read_client_message", "src/server.c:on_client_event", "src/server.c:on_client_message"]}
{"id": "C37", "title": "Receive-buffer index never passes the received data", "statement": "No sequence of bytes sent by a client makes the server's parse position exceed the number of bytes received (which aborts the process).", "quantifier": "every byte stream and segmentation", "why_tests_cant": "Requires one specific message split at one specific byte.", "anchors": ["src/server.c:try_read_client_message", "src/server.c:on_client_fence", "src/server.c:on_client_event"]}
{"id": "C38", "title": "Update requests never wedge the connection", "statement": "Every complete FramebufferUpdateRequest is consumed, so that messages following it are processed.", "quantifier": "every request in every client state", "why_tests_cant": "Depends on continuous-update state.", "anchors": ["src/server.c:on_client_fb_update_request", "src/server.c:on_client_enable_continuous_updates"]}
{"id": "C39", "title": "Key codes are translated inside the key map", "statement": "A QEMU extended key event with any key code reads only inside the translation table and delivers the table's value.", "quantifier": "every 32-bit key code", "why_tests_cant": "2^32 codes against a 254-entry table.", "anchors": ["src/server.c:on_client_qemu_key_event", "src/qnum-to-evdev.c:code_map_qnum_to_linux"]}
{"id": "C40", "title": "SetEncodings keeps the supported encodings in the client's order", "statement": "After a SetEncodings message the encodings in force are exactly the supported ones of the message, in order, truncated to 32, and the JPEG quality is the one of the last quality pseudo-encoding.", "quantifier": "every list of encodings", "why_tests_cant": "Lists of arbitrary length and content.", "anchors": ["src/server.c:on_client_set_encodings"]}
{"id": "C41", "title": "Frame encoding choice respects the client's preference", "statement": "The encoding used for a frame is the first in the client's list that the server can produce for that buffer, and raw if there is none.", "quantifier": "every encoding list and buffer type", "why_tests_cant": "All lists.", "anchors": ["src/server.c:choose_frame_encoding"]}
{"id": "C42", "title": "Legacy cut text is delivered whole and bounded", "statement": "A client cut-text message of any length up to the limit is delivered once, with exactly its bytes, regardless of how it is split into reads; longer ones are refused.", "quantifier": "every text and segmentation", "why_tests_cant": "All lengths around the 4096-byte buffer and all segmentations.", "anchors": ["src/server.c:process_client_cut_text", "src/server.c:process_big_cut_text", "src/server.c:on_client_cut_text"]}
{"id": "C43", "title": "CRLF normalisation of clipboard text", "statement": "Clipboard text from a client is delivered with every CR LF pair replaced by LF and nothing else changed.", "quantifier": "every text", "why_tests_cant": "All placements of CR and LF.", "anchors": ["src/server.c:crlf_to_lf"]}
{"id": "C44", "title": "Extended clipboard messages are length-checked", "statement": "No extended clipboard message makes the server read outside the bytes of that message.", "quantifier": "every message header and body", "why_tests_cant": "Needs particular negative length fields.", "anchors": ["src/server.c:process_client_ext_clipboard", "src/server.c:process_client_ext_clipboard_provide"]}
{"id": "C45", "title": "Update header announces exactly the rectangles that follow", "statement": "In every framebuffer update message the 16-bit rectangle count equals the number of rectangles (encoded frame plus pseudo-rectangles) that follow.", "quantifier": "every frame and every set of pseudo-encodings", "why_tests_cant": "Includes counts near 65535.", "anchors": ["src/server.c:finish_fb_update", "src/server.c:send_ext_support_frame"]}
{"id": "C46", "title": "Damage is never lost", "statement": "Every pixel damaged after a client asked for updates is eventually inside the region passed to the encoder or still pending for that client, in any sequence of damage, requests and completions.", "quantifier": "every sequence of events", "why_tests_cant": "All interleavings.", "anchors": ["src/server.c:nvnc__damage_region", "src/server.c:process_fb_update_requests", "src/server.c:on_client_fb_update_request"]}
{"id": "C47", "title": "At most one update is in flight and requests are counted", "statement": "A client never has two frames being encoded at once, the number of outstanding requests is never negative, and without continuous updates each frame sent answers one outstanding request.", "quantifier": "every sequence of events", "why_tests_cant": "All interleavings.", "anchors": ["src/server.c:process_fb_update_requests", "src/server.c:decrement_pending_requests", "src/server.c:complete_fb_update"]}
{"id": "C48", "title": "Fence requests are echoed once with supported flags", "statement": "Each client fence request is answered exactly once with the same payload and only supported flags, in order, and block-before fences are answered only when no update is in flight.", "quantifier": "every sequence of fences and updates", "why_tests_cant": "All interleavings of encode completion and fences.", "anchors": ["src/server.c:on_client_fence_request", "src/server.c:process_pending_fence", "src/server.c:on_client_fence"]}
{"id": "C49", "title": "SetDesktopSize is validated and answered", "statement": "The layout given to the application is exactly the one in the message, and the reply status is as documented (prohibited, invalid layout, forwarded).", "quantifier": "every message", "why_tests_cant": "All screen counts and geometries.", "anchors": ["src/server.c:on_client_set_desktop_size_event", "src/server.c:check_desktop_layout", "src/desktop-layout.c:nvnc_desktop_layout_get_display_x_pos"]}
{"id": "C50", "title": "Cursor encoding stays inside its buffer and round-trips", "statement": "For every cursor image size the encoded cursor pseudo-rectangle contains exactly width*height pixels followed by height rows of ceil(width/8) mask bytes, each mask bit set iff the pixel is not transparent, and all writes are inside the reserved memory.", "quantifier": "every cursor size and content", "why_tests_cant": "Widths not multiple of eight with large sizes.", "anchors": ["src/cursor.c:cursor_encode", "src/pixels.c:extract_alpha_mask"]}
{"id": "C51", "title": "Damage refinement only removes unchanged tiles", "statement": "The refined region is contained in the tiles touched by the hint, contains every touched tile whose hash changed since the last time it was examined, and nothing outside the hash table is accessed.", "quantifier": "every frame sequence and hint region", "why_tests_cant": "All histories and regions.", "anchors": ["src/damage-refinery.c:damage_refine", "src/damage-refinery.c:damage_refine_tile", "src/damage-refinery.c:damage_refinery_resize"]}
{"id": "C52", "title": "Keyboard LED state is announced in the negotiated encoding", "statement": "When LED state changes the client receives one pseudo-rectangle, tagged with the LED encoding the client negotiated, whose payload has the size that encoding prescribes.", "quantifier": "every client encoding list and LED state", "why_tests_cant": "Depends on combinations of encodings.", "anchors": ["src/server.c:client_send_led_state"]}
{"id": "C53", "title": "Server name is always terminated and never overruns", "statement": "Setting any desktop name leaves a NUL-terminated prefix of it of at most 255 bytes, and ServerInit announces exactly its length.", "quantifier": "every name", "why_tests_cant": "Lengths around the buffer size.", "anchors": ["src/server.c:nvnc_set_name", "src/server.c:send_server_init_message"]}
{"id": "C54", "title": "Log filter and trimming", "statement": "A message is passed to the logger exactly when its level is at or below the configured level, with leading and trailing white space removed, and a panic always terminates the process.", "quantifier": "every level and message", "why_tests_cant": "All strings incl. blank ones.", "anchors": ["src/logging.c:nvnc__vlog", "src/logging.c:trim"]}
{"id": "C55", "title": "Reference-counted buffers are freed exactly once", "statement": "A shared byte buffer is freed exactly when as many drops as acquisitions have happened, in every order.", "quantifier": "every sequence of ref/unref", "why_tests_cant": "All orders.", "anchors": ["src/rcbuf.c:rcbuf_ref", "src/rcbuf.c:rcbuf_unref"]}
{"id": "C56", "title": "WebSocket input is handled within its buffers", "statement": "Whatever bytes a client sends over a WebSocket, reading terminates, never returns more bytes than asked for, and never touches memory outside the receive buffer.", "quantifier": "every byte sequence and buffer state", "why_tests_cant": "All byte strings and states; only adversarial ones break it.", "anchors": ["src/stream/ws/ws.c:stream_ws_read_ready", "src/stream/ws/ws.c:ws_process_payload"]}
{"id": "C57", "title": "Data sent to a WebSocket client is framed exactly", "statement": "Each send to a WebSocket client puts exactly one unmasked binary frame with exactly the payload on the wire, also when the payload is produced later by a deferred send.", "quantifier": "every payload below 2^64 bytes", "why_tests_cant": "All payload lengths and all deferred producers.", "anchors": ["src/stream/ws/ws.c:stream_ws_send", "src/stream/ws/ws.c:ws_chained_exec"]}
{"id": "C58", "title": "An upgrade request is answered only when complete", "statement": "The server answers a WebSocket upgrade request only after the empty line that ends it has been received.", "quantifier": "every request and every segmentation", "why_tests_cant": "Depends on where the network cuts the request.", "anchors": ["src/stream/ws/http.c:http__header", "src/stream/ws/ws.c:stream_ws_read_handshake"]}
{"id": "C59", "title": "The subprotocol in the reply was offered by the client", "statement": "If the upgrade reply names a subprotocol, the client offered it.", "quantifier": "every request", "why_tests_cant": "Needs a statement about all requests.", "anchors": ["src/stream/ws/handshake.c:ws_handshake"]}
{"id": "C60", "title": "The upgrade reply carries the RFC 6455 accept token", "statement": "A complete upgrade request without subprotocols is answered with 101 and base64(SHA1(key + GUID)), and exactly the request is consumed.", "quantifier": "every path, header list, spelling of header names, white space and trailing data; any 20-byte hash function", "why_tests_cant": "All header lists and following bytes.", "anchors": ["src/stream/ws/handshake.c:ws_handshake", "src/stream/ws/http.c:http_req_parse"]}
{"id": "C61", "title": "Queued output is never forgotten", "statement": "While data is queued on an open stream that has seen no error, the stream keeps asking for write events, so the rest is sent without the application having to send again.", "quantifier": "every sequence of sends and every split by the kernel", "why_tests_cant": "Depends on exactly how many bytes the kernel takes.", "anchors": ["src/stream/tcp.c:stream_tcp__flush"]}
{"id": "C62", "title": "Priority sends do not split other messages", "statement": "Data sent with priority (the WebSocket handshake reply) goes out before anything queued and never in the middle of another message.", "quantifier": "every queue state", "why_tests_cant": "Needs a partially sent message in the queue.", "anchors": ["src/stream/tcp.c:stream_tcp_send_first"]}
{"id": "C63", "title": "The three bytes of a CPIXEL are the ones the client expects", "statement": "With 32 bits per pixel and depth at most 24, when all colour bits lie in the low three bytes the CPIXEL is the low three bytes of the pixel, and otherwise, when they lie in the high three bytes, the high three.", "quantifier": "every such pixel format, every pixel", "why_tests_cant": "All shift combinations of client formats and all pixel values.", "anchors": ["src/pixels.c:pixel32_to_cpixel", "src/pixels.c:pixel_to_cpixel"]}
{"id": "C64", "title": "No client pixel format makes the server fail", "statement": "After a SetPixelFormat message with any contents, encoding a frame neither aborts nor executes undefined shifts.", "quantifier": "every SetPixelFormat message, every framebuffer format and contents", "why_tests_cant": "2^128 messages.", "anchors": ["src/server.c:on_client_set_pixel_format", "src/pixels.c:pixel32_to_cpixel"]}
{"id": "C65", "title": "Cursor transparency mask", "statement": "In the mask made from an image with alpha, bit j (most significant first) is set exactly when pixel j is more than half opaque; padding bits are clear and nothing beyond the mask is written.", "quantifier": "every image, every format with alpha", "why_tests_cant": "All pixel contents and counts.", "anchors": ["src/pixels.c:extract_alpha_mask"]}
{"id": "C66", "title": "A ZRLE frame reads back as the framebuffer", "statement": "Given a working zlib, a client that reads a ZRLE frame according to RFC 6143 consumes it to the last byte, finds exactly the announced number of rectangles (at most 65535), sees in each rectangle at each position the converted pixel of the framebuffer, and every damaged pixel lies in one of the rectangles; the two ends of the zlib stream stay in step for the next frame.", "quantifier": "all framebuffers, strides, formats, damage regions of any number of rectangles, and all compressors meeting the zlib contract", "why_tests_cant": "A test can decode some frames; it cannot cover all rectangle sizes, edge tiles, run lengths, palettes and histories of one compression stream.", "anchors": ["src/enc/zrle.c: zrle_encode_frame, zrle_encode_box, zrle_copy_tile", "src/enc/util.c: encode_rect_head"]}
{"id": "C67", "title": "A ZRLE tile is never larger than its raw form", "statement": "The bytes produced for a tile are at least one and at most one plus the CPIXEL size times the number of pixels.", "quantifier": "all tiles, formats and lengths", "why_tests_cant": "The bound depends on the interplay of palette size, run lengths and the fallback; only finitely many tiles can be tried.", "anchors": ["src/enc/zrle.c: zrle_encode_tile, zrle_encode_packed_tile"]}
{"id": "C68", "title": "The raw encoder stays inside its buffers", "statement": "For damage inside the framebuffer and any accepted pair of formats, encoding a raw update reads only inside the framebuffer and writes only inside the reserved output buffer, whatever the damage looks like.", "quantifier": "all framebuffers, formats and lists of rectangles inside the framebuffer", "why_tests_cant": "The rectangles, formats and sizes are unbounded; a run only covers those it draws.", "anchors": ["src/enc/raw.c:raw_encode_box", "src/enc/raw.c:raw_encoder_do_work", "src/vec.c:vec_reserve"]}
{"id": "C69", "title": "Tight output stays inside its buffer", "statement": "Encoding a Tight update never writes outside its buffers or fails an assertion, whatever the framebuffer contents, client format and compression ratio.", "quantifier": "every framebuffer, damage, client format and compressor behaviour", "why_tests_cant": "Depends on the total size over all tiles of incompressible data landing within a few bytes of the capacity.", "anchors": ["src/enc/tight.c:tight_encode_size", "src/enc/tight.c:tight_encoder_encode", "include/vec.h:vec_fast_append_8"]}
{"id": "C70", "title": "Tight updates without JPEG decode to the framebuffer", "statement": "A client following the RFB description of Tight reads every lossless Tight update to its last byte and gets exactly the framebuffer's pixels in its own format, staying in step with all four compression streams.", "quantifier": "every framebuffer, damage, client format, worker schedule and history", "why_tests_cant": "Sizes, formats, histories and schedules are unbounded.", "anchors": ["src/enc/tight.c:tight_encode_tile_basic", "src/enc/tight.c:tight_finish_tile", "src/enc/util.c:calc_bytes_per_cpixel"]}
{"id": "C71", "title": "Tight output does not depend on worker scheduling", "statement": "The bytes of a Tight update and the encoder state after it are the same for every interleaving of the four worker threads.", "quantifier": "every interleaving", "why_tests_cant": "Schedules cannot be enumerated by tests.", "anchors": ["src/enc/tight.c:do_tight_zs_work", "src/enc/tight.c:tight_schedule_encoding_jobs"]}
{"id": "C72", "title": "Tight JPEG rectangles carry an image of their pixels", "statement": "In JPEG mode each rectangle carries the JPEG compressor's output for exactly the framebuffer pixels of that rectangle.", "quantifier": "every framebuffer, format, quality and damage", "why_tests_cant": "All framebuffers and formats.", "anchors": ["src/enc/tight.c:tight_encode_tile_jpeg", "src/enc/tight.c:tight_get_jpeg_pixfmt"]}
{"id": "C73", "title": "ServerInit describes the framebuffer in a format RFB allows", "statement": "For every displayed framebuffer whose format is accepted, the ServerInit message decodes, as RFC 6143 prescribes, to its width and height, the server name and a true-colour format of 8, 16 or 32 bits per pixel whose channels are those of the framebuffer and do not overlap.", "quantifier": "every framebuffer size, format and server name", "why_tests_cant": "All combinations of formats and sizes; byte order of each field.", "anchors": ["src/server.c:send_server_init_message", "src/pixels.c:rfb_pixfmt_from_fourcc"]}
{"id": "C74", "title": "Authentication settings apply to every later connection", "statement": "Once authentication is required, every client that connects afterwards is only admitted after the authentication callback accepted its credentials, also if other clients had connected before the setting was made.", "quantifier": "every configuration change and every sequence of client messages before and after", "why_tests_cant": "Depends on the order of configuration and connections, over unbounded histories.", "anchors": ["src/server.c:init_security_types", "src/server.c:nvnc_enable_auth", "src/server.c:on_version_message"]}
{"id": "C75", "title": "Bytes received in the clear are not used once the channel is encrypted", "statement": "After a connection was upgraded to TLS or RSA-AES, everything acted upon was received through the encrypted channel.", "quantifier": "every sequence of reads", "why_tests_cant": "Depends on how the bytes of the handshake are split over reads by the network or by an attacker.", "anchors": ["src/server.c:on_client_event", "src/auth/vencrypt.c:on_vencrypt_subtype_message", "src/auth/rsa-aes.c:on_rsa_aes_challenge"]}
{"id": "C76", "title": "Requiring encryption encrypts every session", "statement": "If encryption is required, no client is admitted and no ServerInit is sent over an unencrypted connection.", "quantifier": "every configuration with the encryption flag and every message sequence", "why_tests_cant": "Quantifies over all message sequences and flag combinations.", "anchors": ["src/server.c:init_security_types", "include/neatvnc.h:NVNC_AUTH_REQUIRE_ENCRYPTION"]}
{"id": "C77", "title": "No client key stops the server", "statement": "Whatever RSA key a client that is not authenticated presents, the following messages are answered or refused without stopping the server.", "quantifier": "every client public key and message", "why_tests_cant": "The failing keys are a sparse set of the inputs (even modulus, short modulus, long exponent).", "anchors": ["src/auth/rsa-aes.c:on_rsa_aes_challenge", "src/auth/rsa-aes.c:on_rsa_aes_client_hash", "include/crypto/nettle/common.h:crypto_export", "src/crypto/nettle/rsa.c:crypto_rsa_pub_key_import"]}
{"id": "C78", "title": "The RSA challenge sent is the ciphertext", "statement": "The number a client reads from the server's challenge message is the encrypted challenge.", "quantifier": "every key and every ciphertext", "why_tests_cant": "Fails for one ciphertext in 256, chosen at random.", "anchors": ["src/auth/rsa-aes.c:rsa_aes_send_challenge", "src/crypto/nettle/rsa.c:crypto_rsa_encrypt", "include/crypto/nettle/common.h:crypto_export"]}
{"id": "C79", "title": "The Apple DH key is sent for every secret", "statement": "For every random secret the server answers security type 30 with generator, prime and its public key.", "quantifier": "every secret", "why_tests_cant": "Fails for one secret in 256, chosen at random.", "anchors": ["src/auth/apple-dh.c:apple_dh_send_public_key", "include/crypto/nettle/common.h:crypto_export"]}
{"id": "C80", "title": "A connection closed by a message handler is not used again", "statement": "When the server closes a connection while handling one of its messages, nothing of that connection is used afterwards.", "quantifier": "every message sequence", "why_tests_cant": "Use after free shows no defined behaviour to test for.", "anchors": ["src/server.c:on_client_event", "src/server.c:nvnc_client_close", "src/auth/rsa-aes.c:on_rsa_aes_client_hash", "src/auth/vencrypt.c:on_vencrypt_subtype_message", "src/server.c:on_init_message"]}
{"id": "C81", "title": "The handshake receive loop ends and stays inside what was received", "statement": "For every sequence of reads the receive loop ends, takes only bytes that were received, and reads nothing else.", "quantifier": "every sequence of reads of any bytes", "why_tests_cant": "All inputs and all splits.", "anchors": ["src/server.c:on_client_event", "src/server.c:try_read_client_message"]}
{"id": "C82", "title": "Nothing happens after a refusal", "statement": "After the authentication callback refused a client, the refusal is sent and no other message of that client has any effect.", "quantifier": "every message sequence", "why_tests_cant": "All continuations.", "anchors": ["src/auth/common.c:security_handshake_failed", "src/server.c:try_read_client_message"]}
{"id": "C83", "title": "One authentication attempt per connection", "statement": "The authentication callback is called at most once per connection.", "quantifier": "every message sequence", "why_tests_cant": "All histories.", "anchors": ["src/auth/vencrypt.c:on_vencrypt_plain_auth_message", "src/auth/apple-dh.c:apple_dh_handle_response", "src/auth/rsa-aes.c:on_rsa_aes_credentials"]}
{"id": "C84", "title": "RSA-AES session keys are those of the protocol", "statement": "The session keys are the hashes of both random numbers in the order the protocol prescribes, for either hash, and are in use from the server's next message on.", "quantifier": "every pair of random numbers and every split", "why_tests_cant": "All inputs; a wrong order only shows against another implementation.", "anchors": ["src/auth/rsa-aes.c:on_rsa_aes_challenge", "src/crypto/nettle/hash.c:crypto_hash_many"]}
{"id": "C85", "title": "Damage stays pending until it has been sent", "statement": "Every pixel damaged after a client asked for updates is, at any later time, either still pending for that client, in a frame that is being encoded, or in a frame that has been sent to it.", "quantifier": "every sequence of damage, requests, encoder results and write completions", "why_tests_cant": "The loss needs an encoder failure or a dropped frame at a particular moment; all interleavings matter.", "anchors": ["src/server.c:process_fb_update_requests", "src/server.c:finish_fb_update", "src/server.c:on_encode_frame_done"]}
{"id": "C86", "title": "WebSocket upgrade with data right behind it", "statement": "A WebSocket client may send its upgrade request in any pieces and put its first frames right behind it. Nothing is delivered before the request is complete; then the answer is sent in front of everything the server had already queued, and the data of the frames received with the request is delivered. Reads never leave the receive buffer, and a request that does not fit closes the connection.", "quantifier": "all requests below the buffer size, all segmentations, all frames behind it, all queues", "why_tests_cant": "A test picks one segmentation of one request; the property is about every way the bytes can arrive, and about every byte string for the bounds.", "anchors": ["src/stream/ws/ws.c: stream_ws_read, stream_ws_read_handshake, stream_ws_read_into_buffer, stream_ws_advance_read_buffer", "src/stream/ws/handshake.c: ws_handshake"]}
{"id": "C87", "title": "WebSocket frames without data", "statement": "Text and pong frames of any length and in any pieces are skipped exactly: no data is delivered, nothing is sent, and the next frame is found where it begins. A close frame closes the stream. Frames of unknown type make the read fail.", "quantifier": "all frame headers, payload lengths and cuts", "why_tests_cant": "The payload may be cut anywhere and be as long as 2^63 bytes.", "anchors": ["src/stream/ws/ws.c: stream_ws_process_payload, stream_ws_read_frame"]}
{"id": "C88", "title": "The cursor image belongs to the server exactly while it is the cursor", "statement": "Whatever cursors the application sets in whatever order, and whenever clients fetch them, each of its framebuffers has exactly one reference and one hold more while it is the current cursor, none otherwise, is never freed under the application, and is released each time it ceases to be the cursor.", "quantifier": "all sequences of nvnc_set_cursor calls and cursor updates, all counts", "why_tests_cant": "Reference counts go wrong in particular orders of calls and failures; the property is about all of them.", "anchors": ["src/server.c: nvnc_set_cursor, send_cursor_update", "src/cursor.c: cursor_encode", "src/fb.c: nvnc_fb_ref, nvnc_fb_unref, nvnc_fb_hold, nvnc_fb_release"]}
{"id": "C89", "title": "Clipboard text only after the handshake", "statement": "When the application sets the clipboard, the text is written only to clients that have completed the handshake (and hence any authentication).", "quantifier": "every set of connections in every state, every text", "why_tests_cant": "Tests connect well-behaved clients; the property is about every moment at which the application may set the text.", "anchors": ["src/server.c: nvnc_send_cut_text, send_cut_text_to_client"]}
{"id": "C90", "title": "Clipboard text reaches each client in a form it can read", "statement": "For every text the application puts on the clipboard, each client gets exactly one message: the text itself, or with the extended clipboard the text if it accepts texts of that size unasked, otherwise a notification after which it can request the text. A client that follows the protocol gets the text unchanged.", "quantifier": "all texts, all sets of clients with all capabilities, all results of the compressor", "why_tests_cant": "All texts and all capabilities; an off-by-one in the announced size only shows against another implementation.", "anchors": ["src/server.c: nvnc_send_cut_text, ext_clipboard_save_provide_msg, send_ext_clipboard_provide, send_ext_clipboard_notify, on_client_ext_clipboard"]}
{"id": "C91", "title": "One H.264 update per frame, in order", "statement": "Every frame given to the H.264 encoder comes out as exactly one rectangle with the frame's size, position, time stamp and the encoder library's bytes, in the order the frames went in.", "quantifier": "all sequences of frames, key frame requests, quality changes and packets", "why_tests_cant": "Needs hardware encoders; failures of the library at particular moments matter.", "anchors": ["src/enc/h264/open-h264.c: open_h264_encode, open_h264_handle_packet, open_h264_pull", "src/enc/h264/ffmpeg-impl.c: h264_encoder__schedule_work, h264_encoder__on_work_done, h264_encoder_ffmpeg_feed"]}
{"id": "C92", "title": "A fresh H.264 stream is announced and starts with a key frame", "statement": "The first frame after the size, format or quality changed, and the first after a key frame was requested, is a key frame, and no other; and an update that starts a new stream tells the client to reset its decoder.", "quantifier": "all sequences of frames, requests and quality changes", "why_tests_cant": "All orders of requests and changes; a missing reset only shows in a decoder.", "anchors": ["src/enc/h264/open-h264.c: open_h264_resize, open_h264_pull, enum open_h264_flags", "src/enc/h264/encoder.c: h264_encoder_request_keyframe"]}
{"id": "C93", "title": "The H.264 encoder holds a framebuffer exactly while it works on it", "statement": "A framebuffer given to the encoder has one more reference and hold until its packet is done, and none after that, also if the client disconnects meanwhile.", "quantifier": "all sequences of operations, every framebuffer", "why_tests_cant": "Leaks and early releases show only in particular interleavings.", "anchors": ["src/enc/h264/ffmpeg-impl.c: fb_queue_enqueue, h264_encoder__on_work_done, h264_encoder_ffmpeg_destroy"]}
{"id": "C94", "title": "The H.264 encoder is told the frame's memory layout", "statement": "For every framebuffer format, the pixel format given to the encoder library has the same channels at the same byte positions.", "quantifier": "all formats, all sets of formats the device supports", "why_tests_cant": "Needs devices with every set of supported formats.", "anchors": ["src/enc/h264/ffmpeg-impl.c: drm_to_av_pixel_format", "src/enc/h264/v4l2m2m-impl.c: v4l2_format_from_drm"]}
{"id": "C95", "title": "Clients using H.264 cannot crash the server", "statement": "No sequence of frames of any size and of key frame requests makes the server read through a null pointer or fail an assertion.", "quantifier": "all sequences of operations", "why_tests_cant": "The crash needs an encoder that cannot be created for one size but can for another.", "anchors": ["src/enc/h264/open-h264.c: open_h264_request_keyframe, open_h264_encode", "src/enc/h264/ffmpeg-impl.c: h264_encoder_ffmpeg_feed", "src/server.c: on_client_fb_update_request"]}
{"id": "C96", "title": "V4L2 source buffers", "statement": "A framebuffer has exactly one reference and hold for each of the device's buffers it is in; a buffer is not used twice at a time; a frame is given up only if all buffers are in use, and never without an update.", "quantifier": "all sequences of frames and all orders in which the device returns buffers", "why_tests_cant": "Needs the device; the order in which it returns buffers is its own.", "anchors": ["src/enc/h264/v4l2m2m-impl.c: take_src_buffer, encode_buffer, process_src_bufs, h264_encoder_v4l2m2m_destroy"]}
{"id": "C97", "title": "A V4L2 packet's callback may encode the next frame", "statement": "The server encodes the next frame from within the callback of the packet before, whatever the size of that frame; the encoder is not used after it has been destroyed.", "quantifier": "all sequences of packets and frames", "why_tests_cant": "Needs the device and a resize at the moment an update is written at once.", "anchors": ["src/enc/h264/v4l2m2m-impl.c: process_dst_bufs", "src/enc/h264/open-h264.c: open_h264_resize", "src/server.c: on_write_frame_done, complete_fb_update"]}
{"id": "C98", "title": "TLS stream transmits queued payloads in order, each completed once", "statement": "On a TLS connection the bytes handed to the session are the payloads in the order in which they were accepted, whole and once, with at most a first part of the next; every accepted payload is completed exactly once, as done exactly when all of it was handed over; sending never fails an assertion, loops or uses freed memory, whatever completion callbacks do.", "quantifier": "for all sequences of sends, events, arrivals and closes, all results of GnuTLS, all (nested) callbacks", "why_tests_cant": "partial record sends, retries and re-entrant callbacks interleave in unboundedly many ways", "anchors": ["src/stream/gnutls.c:stream_gnutls__flush", "src/stream/gnutls.c:stream_gnutls_send", "src/stream/gnutls.c:stream_gnutls_close"]}
{"id": "C99", "title": "Queued TLS output is never forgotten", "statement": "While data is queued on an open TLS connection the server waits for it to become writable.", "quantifier": "for all event sequences, including sends during the handshake", "why_tests_cant": "needs a send that blocks at the right moment", "anchors": ["src/stream/gnutls.c:stream__try_tls_accept", "src/stream/gnutls.c:stream_gnutls__flush", "src/stream/gnutls.c:stream_upgrade_to_tls"]}
{"id": "C100", "title": "A failed TLS connection is closed and reported", "statement": "When the handshake fails, a send fails for good or the peer ends the session, the connection is closed and the server is told exactly once, so that the client goes away.", "quantifier": "for all points of failure", "why_tests_cant": "each failure point needs its own fault injection", "anchors": ["src/stream/gnutls.c:stream__try_tls_accept", "src/stream/gnutls.c:stream_gnutls__flush", "src/stream/gnutls.c:stream_gnutls_read", "src/stream/common.c:stream__remote_closed"]}
{"id": "C101", "title": "TLS input is delivered in order and without waiting for more", "statement": "What the server reads from a TLS connection is what arrived, in order, nothing lost or repeated; when the network is quiet everything that arrived has been read.", "quantifier": "for all record sizes, read sizes and event sequences", "why_tests_cant": "depends on how the client cuts its data into records", "anchors": ["src/stream/gnutls.c:stream_gnutls_read", "src/stream/gnutls.c:stream_gnutls__on_event", "src/server.c:on_client_event"]}
{"id": "C102", "title": "Only a fatal TLS error ends the session", "statement": "A condition that GnuTLS does not call fatal (a signal during a read, a warning alert) does not end the session.", "quantifier": "for all event sequences without a fatal error", "why_tests_cant": "needs signals and alerts at arbitrary points", "anchors": ["src/stream/gnutls.c:stream_gnutls_read", "src/server.c:on_client_event"]}
{"id": "C103", "title": "The event loop does not use a freed TLS stream", "statement": "No turn of the event loop uses a connection's stream after freeing it.", "quantifier": "for all combinations of events, read results and queued output", "why_tests_cant": "needs a read error in the same turn in which the socket is writable", "anchors": ["src/stream/gnutls.c:stream_gnutls__on_event", "src/stream/tcp.c:stream_tcp__on_event", "src/server.c:on_client_event"]}
{"id": "C104", "title": "Each client is freed once and its cleanup function called once", "statement": "Whatever the order of hang-ups, refusals, closes by the application, exclusive access, and deletion of the server, every client is freed exactly once, its cleanup functions are called exactly once, and it is not used afterwards.", "quantifier": "for all numbers of clients and all sequences of connections, queued and completed sends, hang-ups, read errors, closes, exclusive requests, event loop turns and deletion", "why_tests_cant": "the failures need two reasons to close the same client within one turn of the event loop", "anchors": ["src/server.c:client_close", "src/server.c:defer_client_close", "src/server.c:close_after_write", "src/server.c:disconnect_all_other_clients", "src/server.c:nvnc_del", "src/server.c:nvnc_client_close", "src/stream/tcp.c:stream_tcp_close"]}
{"id": "C105", "title": "A connection that is not taken on gives everything back", "statement": "When a connection cannot be taken on, every resource acquired for it is released exactly once; otherwise it is greeted and keeps them.", "quantifier": "for all combinations of failures of memory and accept and of the state of the display", "why_tests_cant": "needs allocation failures, and the second close of a descriptor shows only when another thread has reused its number", "anchors": ["src/server.c:on_connection", "src/stream/tcp.c:stream_tcp_destroy"]}
{"id": "C106", "title": "A failed attempt to listen on a UNIX socket leaves nothing behind", "statement": "When listening on a UNIX domain socket fails, no descriptor and no name in the file system is left behind.", "quantifier": "for all stream types and all combinations of failing calls", "why_tests_cant": "needs bind to succeed and listen or an allocation to fail", "anchors": ["src/server.c:nvnc_listen_unix", "src/server.c:bind_address_unix", "src/server.c:nvnc__listen"]}
{"id": "C107", "title": "A buffer is reported released exactly when the library stops using it", "statement": "The release callback of a buffer is called exactly once when the library goes from using the buffer (displayed, being encoded, being copied upright) to not using it, and at no other time.", "quantifier": "for all sequences of creating, feeding, encoding, finishing, dropping buffers and letting the display go", "why_tests_cant": "depends on every interleaving of workers, encoders and feeds", "anchors": ["src/display.c:nvnc_display_feed_buffer", "src/display.c:nvnc_display__on_resampler_done", "src/resampler.c:resampler_feed", "src/fb.c:nvnc_fb_release"]}
{"id": "C108", "title": "Frames appear in the order in which they were fed", "statement": "Frames reach the clients in the order in which they were fed; an older frame never replaces a newer one.", "quantifier": "for all sequences of feeds and all orders in which the workers end", "why_tests_cant": "needs a particular timing of worker threads", "anchors": ["src/resampler.c:resampler_feed", "src/resampler.c:on_work_done", "src/display.c:nvnc_display__on_resampler_done"]}
{"id": "C109", "title": "The damage of every buffer fed is reported exactly once", "statement": "Every buffer fed is displayed and its damage reported to the clients exactly once.", "quantifier": "for all sequences of feeds, all orders in which the workers end, all failures", "why_tests_cant": "needs failing allocations or threads, and all interleavings", "anchors": ["src/resampler.c:resampler_feed", "src/display.c:nvnc_display__on_resampler_done", "src/display.c:nvnc_display_feed_buffer"]}
{"id": "C110", "title": "A display may be let go at any time, and buffers are freed when nobody has them", "statement": "Dropping the last reference to a display is safe at any time; a buffer of the application is freed exactly when the application has dropped it and the library does not use it.", "quantifier": "for all sequences of operations", "why_tests_cant": "use after free need not show in a test, and depends on the timing of a worker thread", "anchors": ["src/display.c:nvnc_display_unref", "src/resampler.c:resampler_destroy", "src/resampler.c:fb_side_data_destroy", "src/resampler.c:on_work_done"]}
{"id": "C111", "title": "A displayed frame carries the presentation time of the buffer fed", "statement": "The frame displayed for a feed has the presentation time that was set on the buffer when it was fed.", "quantifier": "for all sequences of operations", "why_tests_cant": "depends on the history of the buffer and on other users of it", "anchors": ["src/fb.c:nvnc_fb_set_pts", "src/fb.c:nvnc_fb_release", "src/display.c:nvnc_display__on_resampler_done", "src/resampler.c:resampler_feed"]}
{"id": "C112", "title": "Input events reach the application exactly, in order", "statement": "For every sequence of KeyEvent, PointerEvent and FramebufferUpdateRequest messages and every way the network cuts them into pieces, the application's callbacks are called once per message, in order, with exactly the key symbol and press state, the button mask and coordinates, or the requested area that the client sent. This is for a client that is not in the middle of a message or held up by a fence, with continuous updates off (with them on an incremental request stalls the connection, C38).", "quantifier": "All sequences of events with all field values, all segmentations, all environment behaviours (encoder, clock, bandwidth limit, cursor), any incomplete message at the end.", "why_tests_cant": "Tests inject a few events in whole messages; the interaction of arbitrary segmentation with updates being encoded in between cannot be enumerated.", "anchors": ["src/server.c:on_client_key_event", "src/server.c:on_client_pointer_event", "src/server.c:on_client_fb_update_request", "src/server.c:on_client_event"]}
{"id": "C113", "title": "Pixels are sent in the format the client asked for", "statement": "A true colour SetPixelFormat is taken over field by field; a client that asks for a colour map is sent one SetColourMapEntries message whose 256 entries are the nearest 16-bit intensities of the values its pixels will have; a frame that was begun in the old format or encoding is not sent after the change.", "quantifier": "All SetPixelFormat messages with all padding, all 256 colours, all interleavings of inputs between the change and the end of the frame that was in work.", "why_tests_cant": "The field values, and the events that can happen while an old frame is in work, are too many to enumerate.", "anchors": ["src/server.c:on_client_set_pixel_format", "src/server.c:cook_pixel_map", "src/pixels.c:make_rgb332_pal8_map", "src/server.c:finish_fb_update"]}
{"id": "C114", "title": "Continuous updates", "statement": "EndOfContinuousUpdates announces the extension exactly once to a client that lists it and is sent once each time the client switches the updates off; while they are on, changes outside the client's area cause no frame, only the area is sent, and full requests are still answered.", "quantifier": "All runs of a client: all inputs in all orders and all environment behaviours; all areas and damage regions.", "why_tests_cant": "Counting over unbounded histories of messages, damage and encoder events.", "anchors": ["src/server.c:on_client_set_encodings", "src/server.c:on_client_enable_continuous_updates", "src/server.c:client_has_damage", "src/server.c:send_end_of_continuous_updates"]}
{"id": "C115", "title": "A client learns of a new size", "statement": "When the frame to be sent has a size the client does not know, the update starts with a size rectangle in the form the client supports (and counts it), the whole new area is sent or stays marked, and later frames of that size do not repeat it; a client that supports no resizing survives it.", "quantifier": "All clients, frames and following inputs.", "why_tests_cant": "Depends on the whole history of sizes, requests and encodings.", "anchors": ["src/server.c:finish_fb_update", "src/server.c:send_desktop_resize_rect", "src/server.c:send_desktop_resize_ext"]}
{"id": "C116", "title": "Only what was changed or asked for is encoded", "statement": "Every pixel given to the encoder for a client was in damage reported by the display, in a full request of the client, or part of a screen whose size was new to the client.", "quantifier": "All runs, all pixels.", "why_tests_cant": "An over-approximation of damage is invisible in tests that compare pictures; it shows only as traffic in particular histories.", "anchors": ["src/server.c:process_fb_update_requests", "src/server.c:on_client_fb_update_request", "src/server.c:nvnc__damage_region", "src/server.c:send_desktop_resize_rect"]}
{"id": "C117", "title": "Time messages are answered and harmless", "statement": "A time message without a fourth time is answered once, keeping the client's time and stating the time of arrival; one with four times has no effect.", "quantifier": "All values of the four times and of the clock.", "why_tests_cant": "The failing values are few among 2^128.", "anchors": ["src/server.c:on_client_ntp", "src/server.c:update_ntp_stats", "src/server.c:on_ntp_msg_send"]}
{"id": "C118", "title": "The handshake follows the protocol", "statement": "Whatever a client sends, all that the server sends and all it tells the application during the handshake is a conversation RFB 3.8 allows: greeting, the security types of the configuration with their number, the messages of the method chosen in their order and on their channel, one call of the authentication callback, the result, ServerInit, the announcement of the client; refusals carry a reason and end it. After each read the server is at a point at which the client is to speak. The client is announced once, as the last thing, and only if it is ready.", "quantifier": "all configurations, environments and sequences of reads", "why_tests_cant": "The order of messages has to hold for every sequence of client bytes, also those no client sends.", "anchors": ["src/server.c:on_version_message", "src/server.c:on_security_message", "src/server.c:on_init_message", "src/auth/common.c", "src/auth/vencrypt.c", "src/auth/apple-dh.c", "src/auth/rsa-aes.c"]}
{"id": "C119", "title": "How the network cuts the handshake into pieces does not matter", "statement": "Two ways of cutting the same bytes into reads lead to the same connection state, the same messages sent and the same calls of the application, as long as they fit the receive buffer and the channel is not upgraded in between.", "quantifier": "all bytes and all ways of cutting them", "why_tests_cant": "There are exponentially many ways of cutting.", "anchors": ["src/server.c:on_client_event", "src/server.c:try_read_client_message"]}
{"id": "C120", "title": "The shared flag decides whether others are disconnected", "statement": "A client whose ClientInit says it does not share disconnects all other clients before its ServerInit; one that shares disconnects nobody; and only a client past authentication ever disconnects others.", "quantifier": "all flags, configurations and sequences of reads", "why_tests_cant": "It must hold for every history, including malicious ones.", "anchors": ["src/server.c:on_init_message", "src/server.c:disconnect_all_other_clients"]}
{"id": "C121", "title": "RSA-AES keys come from fresh random numbers", "statement": "Whatever the client sends, the keys of an RSA-AES connection are hashes of a number the random generator gave for this connection when the challenge was sent, of the size the method prescribes, and one the client sent.", "quantifier": "all sequences of reads, hashes and random generators", "why_tests_cant": "Keys cannot be told from constants by looking at one run.", "anchors": ["src/auth/rsa-aes.c:rsa_aes_send_challenge", "src/auth/rsa-aes.c:on_rsa_aes_challenge"]}
{"id": "C122", "title": "What counts as in flight is exactly what the client has not answered", "statement": "For a client that supports fences and answers every ping once and in order, the amount that the server takes to be in flight is, at every moment, the total size of the frames whose pings have not been answered; in particular it returns to zero.", "quantifier": "for every sequence of handshake messages, frames of any size and answers, at any times", "why_tests_cant": "The clock is cut to 32 bits; what goes wrong does so after 35 minutes or when the 32 bit clock changes sign, and the books must balance over runs of any length.", "anchors": ["src/server.c: update_min_rtt, send_ping, on_fence_response, process_fb_update_requests", "src/bandwidth.c: bwe_feed"]}
{"id": "C123", "title": "Frames are held back only when more is in flight than the link can take", "statement": "A frame is held back only if more bytes are in flight than the estimated bandwidth carries in the smallest round trip time plus 33 ms, and the comparison is defined for every link.", "quantifier": "for every estimate, round trip time and amount in flight", "why_tests_cant": "The limit is computed in floating point and made an int; the unit mistake (33.333e-3 added to bytes) makes a difference only under load.", "anchors": ["src/server.c: process_fb_update_requests", "src/bandwidth.c: bwe_get_estimate"]}
{"id": "C124", "title": "A client that has answered every ping is not held back", "statement": "When a client has answered all pings it was sent, the bandwidth limit does not hold back its next frame; so the limit can never stop updates for good.", "quantifier": "for every sequence of handshake messages, frames and answers, at any times", "why_tests_cant": "A stall needs an exact history (an answer or a handshake message 36 minutes after the one before it), and absence of stalls is a statement about all histories.", "anchors": ["src/server.c: process_fb_update_requests, update_min_rtt, on_fence_response"]}
{"id": "C125", "title": "The ratings of formats put the one that suits the clients best first", "statement": "Of two formats the library can use, the higher rating goes to the one that shows all colours of the deepest connected client; of two that do, to the one with fewer bits; of two that do not, to the one with more; with equal bits to the one without alpha. For cursors only formats with alpha are compared, by their bits alone. Hence an application that picks a format with the highest rating loses no colours that another candidate would have kept.", "quantifier": "for all clients and their pixel formats, all formats and modifiers, any list of candidates", "why_tests_cant": "The rating is a weighted sum in floating point over a product of formats, modifiers and clients' formats (any three 16-bit maxima); that the weights never let alpha beat depth is a statement about all combinations.", "anchors": ["src/pixels.c: rate_format_by_depth, rate_pixel_format, rfb_pixfmt_depth", "src/server.c: find_highest_client_depth, nvnc_rate_pixel_format, nvnc_rate_cursor_pixel_format"]}
{"id": "C126", "title": "Formats that cannot be used are rated zero, all others above zero and at most one", "statement": "A rating is between 0 and 1, and it is 0 exactly if the format is unknown, its modifier is not one of linear, Intel's X, Y and Yf tilings or AMD's without compression, a simple buffer has a modifier, or, for cursors, the format has no alpha. A format with a positive rating can be used for buffers with a transform, too.", "quantifier": "for all 32-bit formats, 64-bit modifiers and sets of clients", "why_tests_cant": "2^96 combinations; the switch over formats, the vendor bits and the alpha table have to agree.", "anchors": ["src/pixels.c: format_modifier_is_allowed, format_has_alpha, fourcc_to_pixman_fmt, rate_pixel_format", "src/server.c: nvnc_rate_pixel_format, nvnc_rate_cursor_pixel_format"]}
{"id": "C127", "title": "Every frame taken for a client reaches it once, in order, and nothing leaks or is used after being freed", "statement": "While frames are encoded in worker threads, in whatever order the threads finish, and whenever the client goes away, every frame taken for a client is handed to it exactly once and in the order of taking, nothing is used after it was freed, no assertion fails, buffers held for frames are released, and the encoder is destroyed as soon as the client is gone and its last work has ended, and not before.", "quantifier": "all three software encodings, all sequences of requests, completions of works in any order, completed and failed writes (also those that complete inside the call), failures to start works, and disconnection at any point", "why_tests_cant": "The interleavings of worker completions, writes that complete synchronously and disconnects are unbounded, and the failures that matter (a work that cannot be started, a send error that is not EPIPE) are hard to provoke.", "anchors": ["src/enc/interface.c:encoder_ref", "src/enc/interface.c:encoder_unref", "src/enc/interface.c:encoder_finish_frame", "src/enc/raw.c:raw_encoder_encode", "src/enc/zrle.c:zrle_encoder_encode", "src/enc/tight.c:tight_encoder_encode", "src/enc/tight.c:tight_schedule_encoding_jobs", "src/server.c:complete_fb_update", "src/server.c:finish_fb_update", "src/server.c:client_close"]}
{"id": "C128", "title": "A frame reaches the client with the time the application gave it", "statement": "The presentation time that goes with a frame to the client is the one the application set on the buffer the frame was made from.", "quantifier": "all runs of all three software encoders", "why_tests_cant": "It fails only when the write of one frame completes inside the call that hands it over and another frame is due at that moment, which a test with a slow or mocked socket never sees.", "anchors": ["src/enc/tight.c:on_tight_finished", "src/enc/tight.c:tight_encoder_encode", "src/enc/raw.c:raw_encoder_do_work", "src/enc/zrle.c:zrle_encoder_do_work", "src/server.c:on_encode_frame_done"]}
{"id": "C129", "title": "A ping carries the size of the frame before it", "statement": "The ping sent after a frame carries the frame's size, and that many bytes count as in flight until it is answered, so that the estimate of the bandwidth is made from the sizes of frames.", "quantifier": "all frames and all amounts the socket takes at once", "why_tests_cant": "The size is read from a buffer that a partial write has shortened; tests with small frames or socket pairs never see a partial write.", "anchors": ["src/server.c:finish_fb_update", "src/server.c:send_ping", "src/stream/tcp.c:stream_tcp__flush"]}
{"id": "C130", "title": "The client's screen shows the application's picture", "statement": "Whenever a pixel is neither marked as damaged nor on its way to the client, the client either has never been sent it or shows exactly what the application's buffer shows there, provided the application reports damage wherever it changes the buffer; and a pixel that was marked has been sent with the current contents when it is no longer marked or on its way.", "quantifier": "every pixel type, every sequence of client messages, damage reports, buffer changes, finished encodings and finished writes, every pixel inside the buffers", "why_tests_cant": "it is an invariant over every interleaving of drawing, encoding, sending and requests; a stale pixel appears only for particular orders of these events", "anchors": ["src/server.c: process_fb_update_requests, finish_fb_update, complete_fb_update, on_client_fb_update_request, nvnc__damage_region"]}
{"id": "C131", "title": "RSA-AES: both sides prove their public keys", "statement": "The server sends its public key when RSA-AES is chosen, reads the client's key exactly as sent, answers the client's random number with the hash of both public key messages (its own first), and lets the client on to the credentials exactly if the client sends the hash of both messages with the client's first; with any other hash the client is disconnected, and there is no other way to the credentials.", "quantifier": "every key, hash function, random number, message and way the reads are cut", "why_tests_cant": "keys and hashes range over unbounded sets; a test shows one exchange, not that no other hash is accepted", "anchors": ["src/auth/rsa-aes.c: rsa_aes_send_public_key, on_rsa_aes_public_key, on_rsa_aes_challenge, on_rsa_aes_client_hash", "src/crypto/nettle/rsa.c: crypto_rsa_pub_key_import", "src/crypto/nettle/hash.c: crypto_hash_many"]}
{"id": "C132", "title": "Messages after a blocking fence wait, and are acted on after its answer", "statement": "While a fence with BLOCK_AFTER waits for a frame, whatever the client sends is kept and has no effect; when the frame is done the fence is answered in full after it and the messages that were kept are acted on in order. Payloads of more than 64 bytes are not copied.", "quantifier": "every fence, payload, frame, later messages and way of cutting them into reads", "why_tests_cant": "it depends on when frames finish relative to reads and on how the later messages are cut", "anchors": ["src/server.c: on_fence_request, on_client_fence, process_pending_fence, on_client_event"]}
{"id": "C133", "title": "Apple's Diffie-Hellman carries the user name and password", "statement": "A client that chooses security type 30 is sent the generator, the prime and the server's public key; if it answers as the protocol says (its own public key, and 64 bytes of user name and 64 of password encrypted with AES-ECB under the MD5 of the shared secret), whatever its secret number, the application is asked about exactly that user name and password. No key a client sends can make the calculation fail.", "quantifier": "All secrets of both sides, all user names and passwords of up to 63 bytes, all padding, all bytes following in the buffer, all block ciphers and hash functions with decryption undoing encryption.", "why_tests_cant": "Secrets are 2048 bit numbers drawn at random; the failure for one public key in 256 is seen only by chance.", "anchors": ["src/crypto/nettle/key.c: crypto_keygen, crypto_derive_public_key, crypto_derive_shared_secret", "src/crypto/nettle/cipher.c: AES128-ECB", "src/auth/apple-dh.c: apple_dh_send_public_key, apple_dh_handle_response"]}
{"id": "C134", "title": "The RSA key an application gives is the key the server uses", "statement": "nvnc_set_rsa_creds with a PEM file of an RSA private key, its text cut into lines of any lengths, sets exactly the key that was encoded and returns 0; any other file is refused with -1 and no memory outside the buffers is touched; the file is closed; a refused file leaves the server with the key it had.", "quantifier": "All keys, all ways of cutting the text into lines, all bytes after the last line, all contents of files, all servers.", "why_tests_cant": "Line lengths, file contents and key sizes are unbounded; the effect of a failed call is seen only when a client later connects.", "anchors": ["src/server.c: nvnc_set_rsa_creds", "src/crypto/nettle/rsa.c: crypto_rsa_priv_key_load", "src/auth/rsa-aes.c: rsa_aes_send_public_key"]}
{"id": "C135", "title": "Listening takes one descriptor and one name, and gives them back", "statement": "nvnc_listen_tcp, nvnc_listen_unix, nvnc_listen and the nvnc_open functions either succeed with exactly one more listening descriptor (bound to one of the addresses of the name, or to the path) or fail and leave the process's descriptors and the file system as they were; deleting the server closes each of its descriptors once and removes exactly the names it made.", "quantifier": "All patterns of failure of socket, setsockopt, bind, listen, allocation and the event loop; all address lists and paths; all sequences of calls; all prior descriptors and files.", "why_tests_cant": "Failures of system calls come in combinations a test cannot provoke; leaks show only in the sum over all paths.", "anchors": ["src/server.c: bind_address_tcp, bind_address_unix, nvnc__listen, nvnc_listen, nvnc_listen_tcp, nvnc_listen_unix, nvnc_open, nvnc_open_unix, nvnc_open_from_fd, unlink_fd_path, nvnc_del"]}
{"id": "C136", "title": "Displays and servers may come and go independently", "statement": "A display exists exactly as long as the application holds a reference to it or an existing server shows it. Whatever order the application makes, adds, feeds, removes and drops its displays and servers in, using only what it holds, the library does not fail. nvnc_display_get_server returns the server that shows the display or NULL. Every update a client gets is the buffer that was fed last to the display that its server shows; every buffer fed to a display reaches the waiting clients of each server that shows it and is pending for the others; a display that no server shows has no effect on clients.", "quantifier": "all sequences of creation, reference, add, remove, feed, connection, request, completion, hang-up and deletion of any number of displays, servers and clients", "why_tests_cant": "Use after free depends on the order of many calls and on what happens inside the event loop that nvnc_del runs; a test takes a few orders and one server.", "anchors": ["src/display.c: nvnc_display_new, nvnc_display_ref, nvnc_display_unref, nvnc_display_feed_buffer, nvnc_display_get_server", "src/server.c: nvnc_add_display, nvnc_remove_display, nvnc_del, nvnc__damage_region, process_fb_update_requests, on_connection, client_drain_encoder"]}
{"id": "C137", "title": "A client's screen shows the buffers fed, turned as they say", "statement": "When an application feeds buffers one after another, each with a rotation or reflection and with damage that covers every pixel that looks different, then the screen of a client that redraws the damage reported for each frame shows the newest frame, turned, at every pixel. Nothing of what was in reused buffers is seen.", "quantifier": "all sequences of frames of any sizes up to 32736, all eight transforms, all damage that covers the changes, all contents of the pool and of the screen before, clients that want damage coming and going", "why_tests_cant": "It is an invariant over whole histories that joins damage refinement, region transforms and resampling; a test feeds a few frames of one orientation.", "anchors": ["src/display.c: nvnc_display_feed_buffer, nvnc_display__on_resampler_done", "src/damage-refinery.c: damage_refine", "src/transform-util.c: nvnc_transform_region, nvnc_transform_to_pixman_transform", "src/resampler.c: resampler_feed, do_work, resample_now"]}
{"id": "C138", "title": "nvnc_client_get_auth_username names the user who was let in", "statement": "If the name returned for a client is U, the application was asked once about this client, with the name U, said yes, and the client was let in; and if the application said yes to a non-empty name, that whole name is returned. No name is returned for a client whose credentials were refused or never asked for.", "quantifier": "every configuration, every sequence of bytes a client may send in whatever pieces, every answer of the application, every security type", "why_tests_cant": "The name is taken from four different handshakes, copied into a fixed buffer and returned later; a test tries a few names and one or two handshakes, not every message a hostile client may send before or after the credentials.", "anchors": ["src/auth/common.c:security_handshake_ok", "src/server.c:nvnc_client_get_auth_username", "src/auth/vencrypt.c", "src/auth/apple-dh.c", "src/auth/rsa-aes.c"]}
{"id": "C139", "title": "A viewer with one zlib stream per encoding can read every ZRLE and Tight frame it is sent", "statement": "For every client, the compressed frames it is sent with one encoding (ZRLE, or Tight) are read by a decompressor that is started when the client connects and fed with them in order, and each comes out as what was encoded; changes of encoding and pixel format in between make no difference. Frames that are encoded but not sent must not be referred to by later ones.", "quantifier": "every number of clients, every order of connecting, setting formats and encodings, starting and finishing frames, writing, closing; every compressor with a matching decompressor", "why_tests_cant": "It takes a format change in the short time a frame is being encoded, and the damage shows only in what a stateful decompressor makes of later frames; the number of interleavings is unbounded.", "anchors": ["src/server.c:finish_fb_update", "src/server.c:ensure_encoder", "src/enc/zrle.c:zrle_encoder_new", "src/enc/tight.c:tight_encoder_new"]}
{"id": "C140", "title": "Encoders are counted and freed exactly", "statement": "No encoder is used after it was freed, none is given a second frame while it has one, no freed client is called back; when all clients are gone and no frame is being encoded every encoder has been freed; and the number of clients for which damage is refined is that of the connected clients whose encoder looks at damage.", "quantifier": "every number of clients and every order of operations, with encoder starts that fail", "why_tests_cant": "Encoders are shared between a client's current pointer, its kept ZRLE and Tight encoders and running work; leaks and dangling pointers need particular orders of switching, finishing and closing.", "anchors": ["src/server.c:ensure_encoder", "src/server.c:client_close", "src/server.c:process_fb_update_requests", "src/server.c:on_encode_frame_done", "src/enc/interface.c:encoder_ref", "src/enc/interface.c:encoder_unref"]}
{"id": "C141", "title": "A viewer never loses its place in what the server sends", "statement": "After the handshake, whatever the viewer sends, the application does and the encoders deliver, in any order and however long, the bytes the server hands to the connection are a sequence of whole messages: a viewer that knows the protocol's message and rectangle lengths can cut them apart with nothing missing, nothing left over, and no message of an unknown kind. The frames of the Raw, ZRLE, Tight and H.264 encoders and cursor images are among those it can read.", "quantifier": "all viewers' ways to read pictures that go by the picture's own bytes; all sequences of received bytes, damage, encoder results, writes, lock-light and cursor changes, clipboard texts; all environments", "why_tests_cant": "One wrong length in one combination of extensions shifts everything after it; the combinations and orders are unbounded.", "anchors": ["src/server.c:on_client_fb_update_request", "src/server.c:process_fb_update_requests", "src/server.c:send_cursor_update", "src/server.c:finish_fb_update", "src/server.c:send_ext_support_frame", "src/server.c:nvnc_client_set_led_state", "src/server.c:nvnc_send_cut_text", "src/server.c:on_client_fence", "src/server.c:send_ping", "src/server.c:on_client_set_desktop_size_event", "src/server.c:on_ntp", "src/enc/raw.c:raw_encode_box", "src/enc/zrle.c:zrle_encode_frame", "src/enc/tight.c:tight_finish", "src/enc/h264/open-h264.c:open_h264_pull", "src/cursor.c:cursor_encode"]}
{"id": "C142", "title": "A viewer that decodes the bytes shows what the application shows", "statement": "A client uses the Raw encoding and keeps its pixel format. Whatever it sends, the application draws and damages, and however encoder and stream take turns, the bytes it is sent divide into whole messages, and a viewer that knows only the protocol, paints the Raw rectangles of these messages and ignores all other rectangles, shows at every pixel that is neither marked as damaged nor in a frame on its way either nothing yet or the application's current pixel converted to the client's format; and it does show the pixel if it was marked once while no update was being made. This is for sessions in which no frame is lost (refused by the encoder or thrown away, see C130), no LED state is sent in the four-byte form (see C52), buffers measure at most 32767 by 32767, and no fence is requested or no further message has arrived when one is answered.", "quantifier": "all sequences of client data, damage, frames, completions, LED and cursor changes; all pictures, regions, formats and pixels; all environments", "why_tests_cant": "It joins damage tracking, update scheduling, message framing and pixel conversion over unbounded histories; a test decodes a few frames of one session.", "anchors": ["src/server.c:process_fb_update_requests", "src/server.c:finish_fb_update", "src/server.c:send_cursor_update", "src/server.c:send_ext_support_frame", "src/enc/raw.c:raw_encode_frame", "src/pixels.c:pixel_to_cpixel"]}
{"id": "C143", "title": "The H.264 hardware encoder sits on the first device that can do the job, and nothing else stays open", "statement": "When a V4L2 encoder is made, its device is the first entry of /dev called video-something that can be opened and that is a streaming multi-planar memory-to-memory device making H.264 of the size asked for; a device that does what it is asked and lists a suitable format is accepted. Afterwards exactly the encoder's file is open, or none if there is no encoder, and destroying the encoder gives back its file and mappings. An encoder that could not be made leaves nothing behind. (The last sentence is false: mappings of buffers stay.)", "quantifier": "every content of /dev, every answer of every driver, every size and format", "why_tests_cant": "the answers of drivers and the order of /dev are unbounded and need hardware; leaks on error paths need each call to fail in turn", "anchors": ["src/enc/h264/v4l2m2m-impl.c:find_capable_device", "src/enc/h264/v4l2m2m-impl.c:is_device_capable", "src/enc/h264/v4l2m2m-impl.c:h264_encoder_v4l2m2m_create", "src/enc/h264/v4l2m2m-impl.c:alloc_dst_buffers", "src/enc/h264/v4l2m2m-impl.c:h264_encoder_v4l2m2m_destroy"]}
{"id": "C144", "title": "No driver can make the server write outside its memory while an encoder is set up", "statement": "Whatever the devices in /dev answer, making the V4L2 encoder neither writes outside its arrays, divides by zero nor aborts. (False: more than 256 formats, a step of zero, more or fewer than three buffers. True for devices whose sizes have steps, with at most 256 formats and the three buffers asked for.)", "quantifier": "every content of /dev, every answer of every driver, every size and format", "why_tests_cant": "the number of formats, sizes and buffers a driver reports is not bounded by the program and depends on hardware", "anchors": ["src/enc/h264/v4l2m2m-impl.c:get_supported_formats", "src/enc/h264/v4l2m2m-impl.c:alloc_dst_buffers", "src/enc/h264/v4l2m2m-impl.c:enqueue_dst_buffers", "src/enc/h264/v4l2m2m-impl.c:can_handle_frame_size"]}
{"id": "C145", "title": "The hardware encoder is told the pixel layout of the application's buffers", "statement": "The device is told a pixel format that it lists, with width and height rounded up to multiples of 16, and that format has the bytes of a pixel in the order in which they are in the application's buffers. (False: the byte order is always the reverse, as DRM and V4L2 name formats from opposite ends; and the bcm2835 is told a format whether it lists it or not.)", "quantifier": "every content of /dev, every answer of every driver, every size and format", "why_tests_cant": "swapped colours show only on hardware, per format and driver", "anchors": ["src/enc/h264/v4l2m2m-impl.c:v4l2_format_from_drm", "src/enc/h264/v4l2m2m-impl.c:v4l2_format_from_drm_bcm2835", "src/enc/h264/v4l2m2m-impl.c:have_v4l2_format", "src/enc/h264/v4l2m2m-impl.c:set_src_fmt"]}
{"id": "C146", "title": "A viewer that decodes ZRLE shows what the application shows", "statement": "A client uses the ZRLE encoding and keeps its pixel format. Whatever it sends, the application draws and damages, and however encoder and stream take turns, the bytes it is sent divide into whole messages, and a viewer that knows only the protocol and feeds the ZRLE rectangles of all frames to one zlib stream shows at every pixel that is neither marked as damaged nor in a frame on its way either nothing yet or the application's current pixel converted to the client's format; and it does show the pixel if it was marked once while no update was being made. This is for sessions in which no frame is lost (see C130), no LED state is sent in the four-byte form (see C52), buffers measure at most 32767 by 32767, no fence is requested or no further message has arrived when one is answered, and zlib works.", "quantifier": "all sequences of client data, damage, frames, completions, LED and cursor changes; all pictures, regions, formats and pixels; all environments; every compressor whose output its decompressor inverts", "why_tests_cant": "The compressor's state runs through all frames of a session: one frame lost, doubled or out of order and everything after it is garbage. A test decodes a few frames of one session.", "anchors": ["src/enc/zrle.c:zrle_encode_frame", "src/server.c:process_fb_update_requests", "src/server.c:finish_fb_update", "src/pixels.c:pixel_to_cpixel"]}
{"id": "C147", "title": "A viewer that decodes Tight shows what the application shows", "statement": "The same as C146 for the Tight encoding without JPEG and a viewer with four zlib streams, although the encoder sends whole tiles and thereby also pixels that were not damaged, taken from the buffer when the frame was begun: for client formats and tile sizes for which a Tight rectangle can be read at all (see C70), buffers of at most 32704 by 32704 pixels, and frames of at most 65533 tiles.", "quantifier": "all sequences of client data, damage, frames, completions, LED and cursor changes; all pictures, regions, formats and pixels; all schedules of the four workers; all environments; every compressor whose output its decompressor inverts", "why_tests_cant": "A tile may carry a pixel that changes while the tile is on its way; that the viewer never ends up with the older pixel depends on all interleavings of damage, encoding and sending.", "anchors": ["src/enc/tight.c:tight_encode_tile", "src/enc/tight.c:tight_apply_damage", "src/server.c:process_fb_update_requests", "src/server.c:finish_fb_update"]}
{"id": "C148", "title": "A viewer shows what the application shows while it changes between encodings", "statement": "C142, C146 and C147 hold in one session in which each frame may be Raw, ZRLE or Tight, as the client asks for one encoding after another: a viewer that keeps its screen, its ZRLE stream and its four Tight streams shows at every pixel that is neither marked nor on its way either nothing yet or the application's current pixel, in the form of one of the three encodings. The conditions are those of C146 and C147, and that the ZRLE and Tight encoders are kept when another is used (C139).", "quantifier": "all sequences of client data including SetEncodings, damage, frames, completions, LED and cursor changes; all orders of the three encodings; all pictures, regions, formats and pixels; all environments; every compressor whose output its decompressor inverts", "why_tests_cant": "The streams must stay in step through every order of switching; a test switches once or twice.", "anchors": ["src/server.c:ensure_encoder", "src/server.c:set_encodings", "src/enc/zrle.c:zrle_encode_frame", "src/enc/tight.c:tight_encoder_encode"]}
{"id": "C149", "title": "A hardware encoder that cannot be made leaves nothing behind", "statement": "Making the VAAPI encoder either gives an encoder, which gives back all it holds when destroyed, or fails and leaves no memory, no filter graph and no open device behind, whichever library call fails.", "quantifier": "all answers of libdrm and FFmpeg to each call; all sequences of attempts", "why_tests_cant": "It takes a failure injected at each of some twenty library calls; the leak is only seen after many attempts.", "anchors": ["src/enc/h264/ffmpeg-impl.c:h264_encoder_ffmpeg_create", "src/enc/h264/ffmpeg-impl.c:h264_encoder__init_filters", "src/enc/h264/ffmpeg-impl.c:h264_encoder_ffmpeg_destroy"]}
{"id": "C150", "title": "The hardware encoder uses a device that is there", "statement": "The VAAPI encoder is made on the first DRM device that has a render node; without one, making it fails and does nothing else.", "quantifier": "all lists of devices and paths; all answers of the libraries", "why_tests_cant": "Machines with and without GPUs; the wrong case reads uninitialised memory, which often looks like an ordinary failure.", "anchors": ["src/enc/h264/ffmpeg-impl.c:find_render_node", "src/enc/h264/ffmpeg-impl.c:h264_encoder_ffmpeg_create"]}
{"id": "C151", "title": "Encoded packets are whole and descriptors are closed", "statement": "Frames encoded by the VAAPI encoder one after the other: each packet handed on consists of all that the codec gave for one frame, in order, failed frames give none and leave nothing for the next; every file descriptor opened for a frame's planes is closed as often as it was opened and not earlier. With buffers of at most four planes, memory, and packets that begin with a zero, nothing aborts; and an encoder that was made has its frames context if FFmpeg refuses to configure a graph without one.", "quantifier": "all sequences of frames, planes, descriptors, packets and library results", "why_tests_cant": "Needs hardware and failures at every call, in every order.", "anchors": ["src/enc/h264/ffmpeg-impl.c:h264_encoder__encode", "src/enc/h264/ffmpeg-impl.c:h264_encoder__do_work", "src/enc/h264/ffmpeg-impl.c:fb_to_avframe", "src/enc/h264/ffmpeg-impl.c:hw_frame_desc_free"]}
{"id": "C152", "title": "Buffers in graphics memory are read only where they are mapped", "statement": "When the application feeds buffers made with nvnc_fb_from_gbm_bo, everything in the library that looks at their pixels - the encoders in their worker threads, damage refinement, turning - finds them mapped while it does, and reads the one mapping that exists; the program does not crash, however viewers, displays and the application interleave.", "quantifier": "for all formats, sizes, driver answers and interleavings of the users of a buffer", "why_tests_cant": "The failures are races between two worker threads in nvnc_fb_map, or between a worker and the V4L2 encoder that unmaps the buffer on the main thread; tests run on main memory buffers without a graphics device and with one viewer", "anchors": ["src/fb.c:nvnc_fb_map", "src/fb.c:nvnc_fb_unmap", "src/fb.c:nvnc_fb_release", "src/enc/raw.c:raw_encode_frame", "src/enc/h264/v4l2m2m-impl.c:process_src_bufs", "src/damage-refinery.c:damage_refine", "src/resampler.c:resampler_feed"]}
{"id": "C153", "title": "Mappings of buffers in graphics memory are undone", "statement": "When the release callback tells the application that the library is done with a buffer made with nvnc_fb_from_gbm_bo, and when the framebuffer is destroyed, all mappings the library made of it have been undone; at any time there is at most one.", "quantifier": "for all interleavings of the users of a buffer", "why_tests_cant": "A leaked mapping shows only as memory that stays in use in the driver, after a race between two worker threads", "anchors": ["src/fb.c:nvnc_fb_map", "src/fb.c:nvnc_fb_unmap", "src/fb.c:nvnc_fb_release", "src/fb.c:nvnc__fb_free"]}
{"id": "C154", "title": "Pixels of buffers in graphics memory are read where they are", "statement": "Whatever distance between rows the driver reports for a mapping of a buffer, encoders read pixel (x, y) of it at y times this distance plus x times the size of a pixel.", "quantifier": "for all formats, distances between rows, positions and interleavings of the users of a buffer", "why_tests_cant": "Drivers align rows to powers of two, which only formats of three bytes per pixel reveal to be a problem; there is no driver in tests", "anchors": ["src/fb.c:nvnc_fb_map", "src/enc/raw.c:raw_encode_box", "src/pixels.c:pixel_size_from_fourcc"]}
{"id": "C155", "title": "What the application feeds to the display is what the viewer shows", "statement": "An application feeds any number of buffers to a display, turned in any way, and says what changed in each. In between the client sends messages, changes between the Raw, ZRLE and Tight encodings, and frames are encoded and written. Once nothing is left to be sent for a pixel, a viewer that decodes the server's bytes shows at that place the pixel of the newest buffer that is seen there, in a form the client's pixel format allows, or has been sent nothing for that place. If the client was told of a change at that place the pixel is shown for certain. The buffers must have one pixel format, the damage must be true, buffers of the same size must be turned the same way, and the hash must tell the tiles apart.", "quantifier": "all sequences of buffers, contents, sizes up to 32736, turns and damage, all interleavings with messages, encodings and writes, all client pixel formats, all zlib implementations that decode what they encode", "why_tests_cant": "the claim joins the damage refinery, the resampler, the frame scheduling and three encoders over every interleaving; a test sees one interleaving and one picture", "anchors": ["src/display.c:nvnc_display_feed_buffer", "src/damage-refinery.c:damage_refine", "src/resampler.c:resampler_feed", "src/server.c:process_fb_update_requests", "src/enc/raw.c:raw_encode_frame", "src/enc/zrle.c:zrle_encode_frame", "src/enc/tight.c:tight_encode_frame"]}
{"id": "C156", "title": "The log names the address every new client connects from", "statement": "For every connection that is taken on, and every log level, what is logged is the text of the address of the client, once, at the INFO level (an IPv4 address in dotted decimals, an IPv6 address as inet_ntop prints it), and no memory is read that nobody wrote to. (False for clients of UNIX sockets, or any other kind of socket, whose line shows an uninitialised buffer, and for clients that are gone when the connection is taken on, for whom the kind of the address is read uninitialised.)", "quantifier": "all addresses, address families, log levels and outcomes of getpeername", "why_tests_cant": "uninitialised stack memory often happens to hold a terminator, so that a test prints an empty or plausible name; whether memory was written on every path is not visible in any one run", "anchors": ["src/server.c:on_connection", "src/server.c:sockaddr_to_string"]}
{"id": "C157", "title": "What a viewer gets does not depend on the kind of stream", "statement": "Whether a client is connected over plain TCP, over WebSocket frames, over RSA-AES or over TLS, and however the kernel, TLS library or network takes the bytes apart: once all is sent, what the client gets after undoing the framing or decryption is the messages the server handed to the stream (other than time replies, which are made up while sending), in order, each once, with nothing in between. In particular the viewer's screen shows the newest buffer the application fed (C155) through each of them, and each of them can carry any sequence of messages.", "quantifier": "all sequences of messages, all patterns of partial writes, all ways to take the bytes apart into frames or encrypted messages, all ciphers meeting the stated assumption, all runs of C155", "why_tests_cant": "the streams are separate pieces of code with queues of their own; a test connects through one of them with one pattern of writes, and a slip would show only at some boundary of a record, frame or partial write", "anchors": ["src/stream/tcp.c:stream_tcp_send", "src/stream/ws/ws.c:stream_ws_send", "src/stream/rsa-aes.c:stream_rsa_aes_send", "src/stream/gnutls.c:stream_gnutls_send"]}
{"id": "C158", "title": "A client that connects over WebSocket can use the security types it is offered", "statement": "Whichever of the offered security types a client chooses that connected to a WebSocket address, from then on what the server sends are frames the client can read, holding the messages, and what the client sends in frames arrives. (False: RSA-AES and VeNCrypt replace the functions of the stream, and the WebSocket framing with them, so that the next message from the server is no acceptable frame and, with RSA-AES, nothing the client sends is ever read. A server that requires encryption offers no other types, so no client gets in over WebSocket.)", "quantifier": "all configurations, security types, messages, frames and cuts", "why_tests_cant": "the security types and the WebSocket stream each work when tested alone; whether any message can ever come through their combination is a statement about all messages and all ways they are cut", "anchors": ["src/stream/rsa-aes.c:stream_upgrade_to_rsa_eas", "src/stream/gnutls.c:stream_upgrade_to_tls", "src/stream/ws/ws.c:stream_ws_new", "src/server.c:init_security_types"]}
{"id": "C159", "title": "A client that follows the protocol is not taken to have hung up for lack of room", "statement": "Whatever valid messages a connected client sends, and in whatever pieces they arrive, the server does not end the connection because its receive buffer is full: every message the protocol allows fits or is taken in pieces, and a client that sends on while the server makes it wait for a fence is kept waiting, not thrown out.", "quantifier": "all clients' states, all messages, all ways to cut the bytes into reads, all numbers of encodings offered, all amounts of bytes sent while waiting", "why_tests_cant": "the number of encodings goes up to 65535 and the cuts are unbounded; whether the buffer fills while a fence waits depends on how long an encoder takes, which a test does not control", "anchors": ["src/server.c:on_client_event", "src/server.c:on_client_set_encodings", "src/server.c:process_pending_fence", "src/stream/tcp.c:stream_tcp_read", "include/common.h:MSG_BUFFER_SIZE"]}
{"id": "C160", "title": "What a client says reaches the application the same through every kind of stream", "statement": "The same messages of a client have the same effect, in particular the same key, pointer and request callbacks in the same order, whether they come over TCP, a WebSocket, RSA-AES or TLS, and however the network and the stream's own framing cut them into pieces.", "quantifier": "all messages, all splittings into pieces, all framings into WebSocket frames, RSA-AES messages or TLS records, all states of a client that is not held up", "why_tests_cant": "the cuts and framings are unboundedly many and chosen by the network and by the peer; a test fixes one", "anchors": ["src/server.c:on_client_event", "src/stream/tcp.c:stream_tcp_read", "src/stream/ws/ws.c:stream_ws_read", "src/stream/rsa-aes.c:stream_rsa_aes_read", "src/stream/gnutls.c:stream_gnutls_read", "src/stream/interface.c:stream_read"]}
{"id": "C161", "title": "A whole connection, from the greeting to the events", "statement": "A client that sends what gets it through the handshake, followed by messages, is let in and has its messages handled exactly as if they had come one by one, by a server that holds of it the screen size and pixel format it was told in ServerInit, through every kind of stream and however the network cuts the bytes, also when the end of the handshake and the first messages come together. And whatever a client sends, however cut: if authentication is required, the application is told of no input from the client unless its authentication callback has accepted credentials from that client before the client was announced.", "quantifier": "all configurations, authentication callbacks and other external functions, all connections not past the handshake, all message sequences, all cuttings (for the second part: all streams and all bytes)", "why_tests_cant": "The handshake and the messages share one buffer and one loop; tests feed them separately and with a few cuttings, and cannot show that no sequence of bytes reaches an input callback without authentication.", "anchors": ["src/server.c:on_client_event", "src/server.c:try_read_client_message", "src/server.c:on_init_message", "src/server.c:send_server_init_message", "src/server.c:on_client_message"]}
{"id": "C162", "title": "Credentials are taken once, kept while they are needed, and given back", "statement": "For any number of servers in a process and any order of nvnc_new, nvnc_set_tls_creds, nvnc_set_rsa_creds, clients starting and ending TLS or RSA-AES, and nvnc_del, and whatever GnuTLS answers: no credentials or keys are freed twice or used after being freed; GnuTLS is initialised exactly as often as there are open servers that accepted credentials; nvnc_set_tls_creds returns 0 exactly when the server has accepted none before and GnuTLS can load these (so accepted credentials are never replaced, and a failed attempt may be repeated); every TLS session has the certificate its own server accepted; once all servers are deleted nothing is left.", "quantifier": "all sequences of calls on open servers, all outcomes of the GnuTLS calls, any number of servers, clients and attempts", "why_tests_cant": "failures inside GnuTLS (initialisation, allocation) cannot be provoked from a test, and the count has to be right for every interleaving of servers", "anchors": ["src/server.c:nvnc_set_tls_creds", "src/server.c:nvnc_set_rsa_creds", "src/server.c:nvnc_del", "src/stream/gnutls.c:stream_upgrade_to_tls", "src/auth/rsa-aes.c:rsa_aes_send_public_key"]}
{"id": "C163", "title": "FFmpeg's messages obey the application's log level", "statement": "A message of FFmpeg reaches the application's log function exactly when FFmpeg itself would show it at the level that nvnc_set_log_level passes on to it, whatever colour bits the level carries; its text is treated as that of any other message, and only a panic ends the process.", "quantifier": "all log settings, all FFmpeg levels and messages", "why_tests_cant": "which levels FFmpeg uses depends on the codec and on what goes wrong inside it; two scales of levels have to agree on every pair", "anchors": ["src/logging.c:nvnc__log_level_from_av", "src/logging.c:nvnc__log_level_to_av", "src/logging.c:nvnc__av_log_callback", "src/logging.c:nvnc_set_log_level"]}
{"id": "C164", "title": "A client's messages never make the server fail", "statement": "Whatever messages a client sends after the handshake, in whatever pieces they arrive, and whatever else happens meanwhile (damage, frames encoded or written, keyboard lights, cursors, the connection ending), handling them never reads or writes outside of a buffer, never touches freed memory, never fails an assertion, never overflows a signed integer and always ends. At most 4096 bytes of messages and one cut text of at most ten million bytes are kept for the client.", "quantifier": "for all environments, all clients between messages, all lists of messages with any contents, all ways to cut the stream into pieces and all interleavings with other events", "why_tests_cant": "The claim quantifies over all message contents, all segmentations and all interleavings with the events of the server; each fault known needs a particular order of events.", "anchors": ["src/server.c:on_client_event", "src/server.c:on_client_message", "src/server.c:try_read_client_message", "src/server.c:process_fb_update_requests", "src/server.c:finish_fb_update", "src/server.c:on_client_fb_update_request"]}
{"id": "C165", "title": "A client is sent only the extensions it has listed or used", "statement": "After the handshake, whatever a client sends among ordinary messages, in whatever pieces they arrive, and whatever else happens in between, everything the server sends to it is something the client has declared in messages that had been received by then: fences, clipboard messages, the end-of-continuous-updates message, time stamps, cursors, desktop sizes, lock lights and announcements of extensions only if its most recent list of encodings contains them, or if it has itself used the message being answered; apart from that only colour maps and the frames that were encoded for it.", "quantifier": "all ordinary messages, all segmentations of the byte stream, all interleavings with frames, cursors, lights, damage and closing, all starting states between messages", "why_tests_cant": "A test drives one list of encodings and one order of events; a message an unprepared client would choke on can come from any of the senders in any later state.", "anchors": ["src/server.c:on_client_set_encodings", "src/server.c:process_fb_update_requests", "src/server.c:send_ext_support_frame", "src/server.c:client_send_led_state", "src/server.c:finish_fb_update", "src/server.c:send_ping"]}
{"id": "C166", "title": "The application may use the library from within its callbacks", "statement": "In its callbacks for keys, pointers, cut texts, update requests and desktop layouts the application may call the library about the same client: show new content (nvnc_display_feed_buffer), set keyboard lights (nvnc_client_set_led_state), change the cursor (nvnc_set_cursor) or close the client (nvnc_client_close). Whatever it calls there, a client that keeps to the ordinary messages never makes the server fail: no freed memory is used, no assertion fails, nothing is read or written outside of a buffer, no loop is endless.", "quantifier": "for all applications (any function from the history to a list of calls), all sequences of ordinary messages, all ways in which their bytes are cut up and arrive, all other events in between", "why_tests_cant": "The code after each callback goes on with the client it was handling; whether that is still sound depends on what the application did inside the callback, at which message, with which bytes left over. Tests have callbacks that do nothing or one fixed thing.", "anchors": ["src/server.c:on_client_event", "src/server.c:on_client_fb_update_request", "src/server.c:check_desktop_layout", "src/server.c:process_big_cut_text", "src/server.c:nvnc_client_close", "src/display.c:nvnc_display_feed_buffer"]}
{"id": "C167", "title": "Clients do not disturb one another", "statement": "Any number of clients may be connected at once. Whatever the others send, whenever they connect and disconnect and however all of this is interleaved, a client is sent exactly the messages, and the application gets exactly the events from it, that there would be if it were the only client of the same display, until it leaves or one joins that does not share. If the server fails with several clients then one of them alone would have made it fail; so any number of ordinary clients does no harm.", "quantifier": "for all numbers of clients, all messages of all of them in all pieces, all orders of joining, leaving, reading, encoding, writing, feeding buffers and changing the cursor", "why_tests_cant": "The clients share the display's buffer, the cursor's number and the clipboard, and the loops over all clients run code that can start reading another message. That none of it reaches another client has to hold for every interleaving of every pair of sessions.", "anchors": ["src/server.c:nvnc__damage_region", "src/server.c:nvnc_set_cursor", "src/server.c:on_client_event", "src/server.c:on_init_message", "src/server.c:disconnect_all_other_clients", "src/server.c:process_fb_update_requests"]}
{"id": "C168", "title": "A query in the address makes no difference to an upgrade request", "statement": "A WebSocket upgrade request for an address with a query (/websockify?token=abc) gets the same answer as the request for the address without it, and all of it is used up, whatever path, names, values and header lines there are.", "quantifier": "all paths, queries, header lines and bytes that follow", "why_tests_cant": "addresses and queries are unboundedly many and chosen by the deployment; a test fixes one", "anchors": ["src/stream/ws/http.c:http__url", "src/stream/ws/http.c:http__url_path", "src/stream/ws/http.c:http__url_query", "src/stream/ws/http.c:httplex__is_literal", "src/stream/ws/handshake.c:ws_handshake"]}
{"id": "C169", "title": "Nothing of an altered or forged message is acted on, and it ends the connection", "statement": "Whatever bytes the network delivers over an RSA-AES connection, in whatever pieces, the messages, callbacks and replies the server produces are those of a client that sent some of the authentic messages at the front of those bytes, in their order; nothing from the first message with a wrong authentication code on is acted on. When that message is whole and next, the client is closed and later bytes are ignored. Likewise over a WebSocket a close frame, or a frame of a kind that has no meaning, closes the client and later bytes are ignored.", "quantifier": "All byte sequences and ways of cutting them, all ciphers and authentication codes, all client states; for the closing, all texts, codes and lengths that the server has room for.", "why_tests_cant": "A test alters some messages at some positions; the claim is about every byte sequence an attacker on the path can deliver and every way it is cut.", "anchors": ["src/stream/rsa-aes.c:stream_rsa_aes_read", "src/stream/rsa-aes.c:stream_rsa_aes_read_message", "src/stream/ws/ws.c:stream_ws_read_ready", "src/stream/ws/ws.c:stream_ws_process_payload", "src/server.c:on_client_event"]}
{"id": "C170", "title": "The colours on a viewer's screen are those of the application's buffers", "statement": "A viewer follows everything the server sends on a connection from its start: Raw, ZRLE and Tight rectangles in any mixture, cursors, fences and the rest. It reads each pixel of a rectangle by the rules of that rectangle's encoding: Raw and ZRLE pixels as a number in the byte order the viewer asked for (with ZRLE leaving out the unused byte of a 32-bit pixel of depth at most 24), Tight pixels of such a format as red, green, blue. Once nothing is outstanding and nothing is damaged, each pixel it has painted has the red, green and blue of the newest buffer at that place, each rescaled from the range of the buffer's field to the range the viewer asked for; buffers are described by the fields that the name of their DRM format spells out. This holds with buffers turned or flipped by their transform.", "quantifier": "for all buffers, damage, transforms, update requests, schedules of encoding and writing, encodings per frame, viewer formats of 8, 16 or 32 bits, DRM formats other than the 16-bit ones of C24, and zlib implementations that inflate what they deflate", "why_tests_cant": "Needs every pixel value, every format pair and every interleaving of damage, requests and frames; a test compares one image in one format.", "anchors": ["src/pixels.c:pixel_to_cpixel", "src/pixels.c:rfb_pixfmt_from_fourcc", "src/enc/util.c:calc_bytes_per_cpixel", "src/enc/raw.c:raw_encode_box", "src/enc/zrle.c:zrle_encode_box", "src/enc/tight.c:tight_encode_tile_basic", "src/server.c:process_fb_update_requests", "src/display.c:nvnc_display_feed_buffer"]}
{"id": "C171", "title": "The layout accessors tell what the client asked for", "statement": "When a client asks for a desktop layout that fits, the application reads through the nvnc_desktop_layout functions exactly the desktop and the screens of the message, in order, with the server's display at the screens numbered 0; at an index past the last screen they give zero and NULL. Whatever the screens in the message are and whatever index the application uses, nothing outside of the message or of the layout, and nothing unset, is read.", "quantifier": "for all desktops, lists of screens, bytes that follow in the receive buffer, indices and applications", "why_tests_cant": "Any list of up to 255 screens and any index; the memory safety of arbitrary messages is not visible in a test's results.", "anchors": ["src/desktop-layout.c:nvnc_display_layout_init", "src/desktop-layout.c:nvnc_desktop_layout_get_display_x_pos", "src/desktop-layout.c:nvnc_desktop_layout_get_display", "src/server.c:check_desktop_layout"]}
{"id": "C172", "title": "Secret numbers are random", "statement": "The server's number in the keys of an RSA-AES connection and its secret for Diffie-Hellman are made of bytes that the kernel's random generator gave for them, and of nothing else; if the kernel gives too few or none, nothing else is used in their place.", "quantifier": "for all answers of the kernel, settings, environments and bytes from the client", "why_tests_cant": "The kernel practically always answers in full in a test, and a number made of something else looks like any other number.", "anchors": ["src/crypto/random.c:crypto_random", "src/auth/rsa-aes.c:rsa_aes_send_challenge", "src/crypto/nettle/key.c:generate_random"]}
{"id": "C173", "title": "Whether H.264 is available is found out once", "statement": "Whether H.264 counts as available is decided when a client's encodings are first looked at with a GPU buffer on display, by whether an encoder for 1920 by 1080 pixels can be had at that time. The answer is the same for all clients from then on, whatever encoders are made and destroyed in between. All questions together make the server try at most once, and leave no encoder behind and destroy none of a client's.", "quantifier": "for all builds (with V4L2, FFmpeg, both or none), for all ways in which implementations work or fail over time, and all sequences of questions and encoders made and destroyed", "why_tests_cant": "It is about a static variable and about hardware that comes and goes, over executions of any length in one process.", "anchors": ["src/server.c:have_working_h264_encoder", "src/server.c:choose_frame_encoding", "src/enc/h264/encoder.c:h264_encoder_create", "src/enc/h264/encoder.c:h264_encoder_destroy"]}
{"id": "C174", "title": "A stream releases every buffer it is given", "statement": "A buffer that is given to a TCP stream for sending belongs to the stream: it is released exactly once, when it has been written or when the stream is closed, and when the stream has been closed nothing that was given to it is left.", "quantifier": "for all sequences of sends, deferred sends, writable events with any result of sendmsg, and closing", "why_tests_cant": "A lost buffer has no visible effect; which buffers are written, in part or not at all when the connection breaks depends on the peer and the kernel.", "anchors": ["src/stream/tcp.c:stream_tcp_send", "src/stream/tcp.c:stream_tcp_close", "src/stream/common.c:stream_req__finish", "src/stream/interface.c:stream_write"]}
