{
"C01": "Full.",
"C02": "Full.",
"C03": "Full.",
"C04": "Full.",
"C05": "Full: completeness, prefixes, soundness.",
"C06": "The property is false of the code: the masking key is stored over the start of the header. Not reachable from the server today (it never sends masked frames).",
"C07": "Full, for whole payloads; see C08 for payloads that arrive in pieces.",
"C08": "False of the code (mask phase, cut headers, empty and control frames). Proved for every segmentation whose cuts fall between frames or inside payloads (at multiples of four bytes when masked).",
"C09": "False of the code: masked pings are echoed still masked, and a ping larger than the buffer reads past it. The partial theorem says what is sent for a complete ping.",
"C10": "False: any white space hangs the server. Proved for values without white space.",
"C100": "A failed handshake leaves the connection open for ever; a failed send closes it silently. Proved for failures met by a read; reported at most once.",
"C101": "Order and completeness proved; promptness false for records longer than the free space of the message buffer, proved for records that fit.",
"C102": "False for warning alerts and interrupted reads; proved when only application data arrives.",
"C103": "False when a read fails in a turn in which the connection is also writable; it is the only fault of the TLS stream.",
"C104": "No use after free refuted in four ways (close after hang-up, exclusive access or deletion after a refusal, hang-up with a last message queued); C104_early_close_fatal describes them in every reachable state. Proved: cleanup at most once in all runs; no use after free when nothing whose end is under way is closed; deletion frees every client.",
"C105": "Refuted: with no buffer fed yet the descriptor is closed twice, with no display a null pointer is used, and the estimator is lost in every refusal. Partial: balanced apart from the estimator when accept or the stream fails; success keeps everything.",
"C106": "Refuted for plain sockets: the name stays when listen fails after bind. Partial: no descriptor is left, and for WebSockets no name.",
"C107": "Refuted: feeding the displayed buffer again reports it released while it stays displayed. Proved for all other steps of all runs.",
"C108": "Refuted for rotated and upright buffers mixed and for two copies in flight. Proved when nothing is fed while a copy is being made.",
"C109": "Refuted when the feed fails: the damage is lost silently. Proved for the feeds that are accepted.",
"C11": "False: the 33rd header line is stored outside the table. Proved: termination and safety for any input with fewer than 33 CR; exact parsing for up to 32 lines.",
"C110": "Refuted: a copy that ends after the display is gone, and freeing a rotated buffer after the display is gone, use freed memory. Proved: no fault when the display goes last; buffers are freed exactly when dropped and unused (all runs).",
"C111": "Refuted: copies of rotated buffers never have a time; feeding the displayed buffer again clears it. Proved for upright buffers that are not displayed.",
"C112": "Continuous updates off; with them on an incremental request stalls the connection (C38).",
"C113": "Refuted: with a colour map the pixel size asked for is ignored (always 8 bits). The stale frame theorem excepts clients with fences, as the code does. Rounding of 65535.0/m*v is modelled exactly.",
"C114": "Refuted: damage outside the area is sent along, and a full request outside the area is not answered until something inside it changes. Proved: changes outside cause no frame, changes and full requests that touch the area are encoded at once when no update is being made and nothing holds it back.",
"C115": "Refuted: a client without support is closed by finish_fb_update and used afterwards (use after free). Partial: sizes up to 32767 (16-bit regions).",
"C116": "Refuted for an unchanged size: clients with ExtendedDesktopSize get the whole screen after each full request, because the request resets the known size. Coordinates wrap at 16 bits, as in the code.",
"C117": "Refuted: times chosen by the client make signed arithmetic overflow (undefined behaviour). The third time is filled in when the message leaves the queue, which is not modelled here.",
"C118": "The protocol automaton is in Hand_Spec.v.",
"C119": "Across an upgrade cutting matters (C119_cutting_across_the_upgrade_matters, see also C75).",
"C12": "Full, for any kernel behaviour, deferred producers and callbacks that send or close.",
"C120": "Which clients are closed by it is C98-C105 (life of clients).",
"C121": "That the random generator is good is not modelled.",
"C122": "Proved for answers that come within 2^31 microseconds; refuted without: a late answer is thrown away and its bytes stay in flight for ever. Answers across the sign change of the 32 bit clock overflow a signed int.",
"C123": "The limit is one smallest round trip's worth, the 33 ms of slack are lost (0.033333 is added to a number of bytes): refuted, with the exact limit as a theorem. Conversion overflows when bandwidth times round trip time reaches 2^31.",
"C124": "Proved for answers and handshake messages that come within 2^31 microseconds; refuted without, two ways: an answer after 36 minutes, or 36 to 71 minutes between two messages of the handshake, and the client is never sent a frame again.",
"C125": "Ratings as exact fractions. The order theorem is full for little-endian formats; 16 bit formats announced with seven bits per colour make the server rate its own format below 24 bit ones (refuted).",
"C126": "Proved exactly for framebuffers, for cursors with little-endian formats. Refuted: alpha of big-endian formats is not seen although the mask could be read; formats without pixman format, or big-endian ones, are rated above 0 and stop the server when transformed.",
"C127": "C127_frames_are_handed_out_once_partial covers all runs in which works start (for Tight also: the first job fails to start) and no send fails half way; the other cases are refuted with witnesses.",
"C128": "Proved for Raw and ZRLE without this restriction, for Tight when no frame begins while another is handed over; refuted for Tight otherwise.",
"C129": "C129_ping_counts_what_is_left gives the size exactly for an idle stream; the claim holds of frames that go out in one piece or not at all, and is refuted for the rest.",
"C13": "Exactly-once completion is proved for every run that does not fault; runs can fault in two ways (witnesses); without deferred sends and closing callbacks none does.",
"C130": "Partial: no frame may be refused by the encoder or thrown away (refuted otherwise: after a change of encodings or of the pixel format the frame under way is thrown away with its damage, and the client keeps the old picture); nested reads after fences; pixels beyond 32767.",
"C131": "Partial: the client's key must be sent with the size of its modulus; refuted otherwise (the server hashes a normalised key message, not the one the client sent, and disconnects the client).",
"C132": "Partial: only BLOCK_BEFORE|BLOCK_AFTER blocks (with SYNC_NEXT as well, later messages are acted on at once: refuted); messages kept while the client waited are not acted on until more bytes arrive (refuted).",
"C133": "Partial: one public key in 256 begins with a zero byte and the server aborts (refuted by the secret 5). MD5 and AES are parameters. Primality of the modulus is not used and not proved.",
"C134": "Partial: files with CRLF line ends or text before the first line are refused; an empty file stays open; a failed call discards the old key, after which a client choosing RSA-AES aborts the process (all as theorems). nettle's DER parser is a parameter.",
"C135": "Partial: a failed listen on a Unix socket of the normal type leaves its name behind; an empty path is bound in the abstract name space; deleting a server removes a name that belongs to another socket by then; a handler that aml refuses is reported as success (refuted theorems). The kernel's part is modelled in Listen_Model.",
"C136": "The reference count is exact for all sequences, and clients only ever see the last buffer of the display of their server. False in general: feeding a display after its server was deleted is a use after free, so is deleting a server that encodes a frame when the application has dropped the display; feeding a display that was never added fails an assertion; a server without display crashes on the next connection; nvnc_display_get_server returns deleted servers; of two servers showing one display only the last gets its frames; a removed display still triggers updates. The _partial theorems are for programs that avoid these. nvnc_display_get_server gives the server the display was added to last (C136_get_server_is_the_last); this is the right one as long as it is neither removed nor added elsewhere and the server is there (C136_get_server_partial).",
"C137": "False: the refinery hashes the bytes of the buffer only, so a buffer with the same bytes and size but another transform or format damages nothing and the client keeps the old picture (C137_turning_alone_is_missed for every hash). Proved for frames that keep transform and format while they keep the size, and hashes that tell the tiles apart.",
"C138": "Refuted for the empty name: a user without a name who was approved reads as nobody. Partial: all other names.",
"C139": "Refuted: a frame thrown away because the format changed (client without Fence) has already gone through the compressor. Partial: clients that lost no frame of that encoding; those naming Fence lose none.",
"C14": "Both directions, any cipher that is length preserving, invertible and has 16-byte tags; any number of send calls, any segmentation on input.",
"C140": "Refuted when a first ZRLE or Tight encoder cannot be allocated: encoder_ref(NULL). Partial: with memory for these.",
"C141": "Partial: excludes runs in which a lock-light state was sent in the VMware format (then refuted: three stray bytes), frames of more than 65533 rectangles (C45) and texts of more than 2000000000 bytes. Picture readability is an assumption of the session theorem, discharged per encoder by C141_raw_frames, C141_zrle_frames, C141_tight_frames, C141_h264_frames and C141_cursors.",
"C142": "Composition of C22, C130 and C141, down to the bytes; the conditions are those for which C130 and C141 hold and are part of the statement.",
"C143": "nothing left behind is refuted (mappings leak when setting up fails) and holds if no device is found",
"C144": "refuted; holds for devices whose answers fit",
"C145": "listed: proved for all drivers but bcm2835; layout: refuted, always the reverse",
"C146": "all encoder frames of the run made by one encoder",
"C147": "without JPEG; all encoder frames of the run made by one encoder",
"C148": "pixel format kept; without JPEG",
"C149": "false when the codec context cannot be allocated or opened: the filter graph and the device stay open",
"C15": "Proved for the nonce/counter code of both AES-EAX variants (same code).",
"C150": "second half false: -1 is returned as a bool, so the caller goes on with an uninitialised path",
"C151": "that FFmpeg lets go of a frame by the time it is freed is assumed",
"C152": "False in general: two encoders starting on an unmapped buffer can read at NULL; the V4L2 encoder unmaps a buffer others are reading; failed mappings are not noticed by refinement and turning; unknown formats divide by zero. Proved for undisturbed executions, which includes all where each feed is refined and V4L2 is not used, and all where only V4L2 is used.",
"C153": "False when two encoders map at the same time: the first handle is overwritten. Proved for undisturbed executions.",
"C154": "False when the distance is not a multiple of the size of a pixel (RG24, BG24): all rows but the first are read too early. Proved otherwise.",
"C155": "Composes C51, C137, C130 and C148. Conditions of C137 (no turning of buffers of one size, hashes that tell tiles apart) and of C148 are part of the statement.",
"C156": "Holds for clients over IP that are still connected; refuted for UNIX sockets and for clients that are gone (uninitialised reads).",
"C157": "Messages handed over with stream_send; replies produced while sending (NTP) are not covered.",
"C158": "Holds for the types without encryption (none, Apple DH); refuted for RSA-AES and VeNCrypt.",
"C159": "False of the code in two ways, both proved for all cuts: offering 1024 or more encodings, and sending 4096 bytes while waiting for a fence, make the server see the end of the connection. The partial theorem is for messages that fit and clients that do not wait.",
"C16": "False: messages over 8174 bytes (this server sends up to 8192) are never delivered and end in a close; an empty message or a short destination leaves complete messages behind. Partial: 1..8174 bytes and a destination of at least 8174.",
"C160": "Partial: the pieces are restricted as in C08, C16 and C101, where the streams themselves fail; under these restrictions the final state of the client is the same for all four. Refuted: a cut in a masked payload turns one key into another.",
"C161": "Proved for bytes and pieces as in C160 and parts of the handshake that do not change the stream; refuted across a change of the stream, where it matters how the bytes are cut (C75, C119). The part about authentication holds without these conditions.",
"C162": "all sequences of calls; a call on a server that is not open is outside",
"C163": "false: VERBOSE messages are passed on as information although the level told to FFmpeg leaves them out, and messages with colour bits or in-between levels count as trace (refuted); proved for every documented level other than VERBOSE",
"C164": "Proved for ordinary messages: those of RFC 6143 with any contents and cut text of up to ten million bytes, continuous updates, QEMU keys below code 254, desktop sizes and time. Missing: fences, extended clipboard (negative length), unknown types and codes, where it is false (C37, C39, C44); and clients that stop listing the desktop size encodings, where it is false by the witness given here.",
"C165": "Proved with the exception of lock lights for a client that lists only VMware's encoding; refuted without.",
"C166": "False for nvnc_client_close: C166_callbacks_may_call_the_library_refuted has a client that is closed at the press of a key and then used. The partial theorem covers the other calls, for ordinary clients as in C164. C166_silent_callbacks ties the model to Msg_Model.v.",
"C167": "For clients that have finished the handshake; nvnc_send_cut_text is not among the events (see C89, C90). Failing alone is possible (C164), the conditions of C167_any_number_of_ordinary_clients are those of C164.",
"C168": "False: a query right after a slash (/?token=abc) and values with an equals sign (base64 padding) make the server refuse the request; proved for all other queries of non-empty names and values, for every path that does not end in a slash.",
"C169": "Messages taken by the same read as an altered one are lost with it (C169_messages_read_with_an_altered_one_can_be_lost).",
"C17": "Whenever the encoder returns; C18 says when it does.",
"C170": "Colours are read with the fields of the formats only (Pixels_Spec), no conversion function of the model is used in the statement. Formats of 32 bits with depth at most 24 are those whose fields lie in the low or the high three bytes, as RFB requires for CPIXEL; JPEG rectangles of Tight are C72.",
"C171": "malloc is assumed to succeed; the layout is freed when the callback returns, an application that keeps the pointer is outside of the model.",
"C172": "False when getrandom fails or is cut short: its result is not looked at (src/crypto/random.c:26). C172_numbers_are_random_refuted: an RSA-AES connection is upgraded with keys made with zeros as the server's number, and the Diffie-Hellman secret is read from unset stack memory. Universal descriptions of both: C172_missing_bytes_are_zero, C172_keys_without_random_numbers, C172_secret_of_unwritten_memory. Missing in the partial theorems: kernels that do not answer in full, and the numbers Nettle draws itself with the same function (RSA key generation and padding).",
"C173": "This is what lets Msg_Model take the answer as a constant of the environment. C173_answer_can_be_outdated: the answer need not be true of the time of the question or of a client's size; an encoder that works for smaller pictures only is never used.",
"C174": "False of buffers given to a closed stream: stream_tcp_send returns -1 without releasing them (src/stream/tcp.c:220-221), and stream_write, which made the buffer, does not either (src/stream/interface.c:46-51). C174_buffers_are_released_refuted: the peer is gone (EPIPE) and something more is written. C174_given_when_closed_is_lost: so for everything given later. Missing in the partial theorem: that, and requests with callbacks; for these C174_what_was_taken_is_released.",
"C18": "False for CPIXELs of 4 bytes: cpalette[16*3] overflows for every tile with 13 to 16 colours. Proved for CPIXELs up to 3 bytes, whole frames included, and for tiles of up to 12 colours.",
"C19": "",
"C20": "Proved for every length below 2^22: reads back, at most 3 bytes, and no shorter byte string reads to the same length.",
"C21": "False for framebuffers wider or higher than 32704: tile boxes are 16-bit and the edge 32768 wraps, so damage in that column is never sent (refuted with a witness). Partial: up to 32704, rectangle count equals rectangles read, each inside the framebuffer, each damaged pixel in exactly one.",
"C22": "C22_raw_frame_reads_back: a client reads exactly the announced number of rectangles, each pixel is the conversion of the framebuffer's.",
"C23": "Any pair of true-colour formats whose fields are disjoint, any number of pixels. Refuted only for big-endian sources: the byte order of the framebuffer format is ignored.",
"C24": "False for the eight 4444 formats (maximum 0x7f for 4-bit fields, so channels overlap). Proved for every other accepted format code.",
"C25": "False: with 32 bits per pixel and depth 16 or less the size is 2, 1 or 0; colour bits in the middle are still sent as 3 bytes.",
"C26": "False for dimensions of 32768 or more (translation overflows int, refuted). Partial: all eight transforms up to 32767x32767.",
"C27": "Proved for every history; the estimate is an exact fraction, its conversion to double and int is abstracted to exact arithmetic.",
"C28": "False: a first reply faster than the handshake divides by zero (refuted, and proved for all such replies). Partial: defined when every sample took longer than the minimal round trip time.",
"C29": "Proved for every sequence in which owners drop only what they have.",
"C30": "Proved for every execution in which calls go through references the callers have and holds end when the buffer is given back; that this condition is needed is proved too. One pool, main-memory framebuffers.",
"C31": "False: the product is computed in 32 bits (no bytes for 32768x32768x4, int overflow above), and formats unknown to the library (RGB565) get no bytes. Partial: known formats below 2^31 pixels and 2^32 bytes.",
"C32": "For configurations made before the first connection (see C74); executions without failure (see C35, C77, C79, C80).",
"C33": "See C75 for bytes that came before the upgrade.",
"C34": "All three credential messages.",
"C35": "False: a client key of 1023 to 2046 bytes makes the challenge overflow a 1024 byte buffer on the stack before authentication. Proved for keys up to 1022 bytes, with RSA assumed to give numbers below the modulus.",
"C36": "Proved for all accepted message lists, all splits and any unfinished rest.",
"C37": "False for fences that arrive in pieces (length byte read before it arrives; responses consumed before they are complete): refuted. Proved for every other message.",
"C38": "False: an incremental request while continuous updates are on returns 0 and stays in the buffer for good (universal theorem and reachable witness). Proved for all other requests.",
"C39": "False for codes of 254 and above, which read past the table (universal theorem and witness). Proved for codes below 254.",
"C40": "The list of encodings is proved in full. The quality part is false when it follows the 32nd supported encoding (refuted) and proved when fewer than 32 are supported.",
"C41": "Proved.",
"C42": "Delivery is proved for every text up to the limit and every split. Refusal of longer texts is false: the client is freed while in use (refuted).",
"C43": "False for a CR on its own, which becomes LF (exact description proved, witness given). Proved for texts without one, terminated by 0.",
"C44": "False for announced lengths of 1-3 bytes (read outside) and 2^31 (signed overflow). Proved for all others.",
"C45": "False when an encoded frame has 65534 or more rectangles and pseudo-rectangles are added (16-bit wrap). Proved for all smaller frames and for the extension update.",
"C46": "Proved for buffers of at most 32767 by 32767 pixels; refuted for wider ones (pixman 16-bit coordinates).",
"C47": "Proved when no message is handled from inside another's completion (no fence waiting, or no buffered data); refuted otherwise.",
"C48": "False in two ways, both refuted with runs: abort when a fence arrives while a request is outstanding, and a second fence overwrites a waiting one. Proved for a fence on an idle client and for one BLOCK_BEFORE fence during a frame.",
"C49": "Proved for every layout.",
"C50": "False in several ways: the mask is written out of bounds for widths that are not multiples of eight and more than 4096 bytes (C50_mask_overflow is exact), images without alpha are sent without mask, 16-bit images are read and cleared out of bounds, the hotspot is wrong under six of eight transforms, and part of a transformed image is the wrong part. C50_cursor_reads_back_partial: 32-bit formats with alpha, within the reserved size.",
"C51": "Partial: exact over every sequence of frames with sizes up to 32736 and damage inside the buffer, in terms of the hash. False for contents (any 32 bit hash drops a change), for damage outside the buffer (out-of-bounds read) and for wider buffers (last column never passed on).",
"C52": "Proved for clients with the QEMU encoding; refuted for clients with only the VMware one (QEMU number with a four-byte payload).",
"C53": "Proved for every name.",
"C54": "Proved for every level, settings and message (cut to 1023 bytes); isspace is glibc's in the C locale.",
"C55": "Proved for every order of references and drops.",
"C56": "False because of the ping over-read (C09). Everything else is proved for all inputs: reading terminates, returns no more than asked for, and leaves the buffer only for a ping announcing more than 4082 bytes (RFC 6455 allows 125) that starts where a frame header is expected (C56_only_long_pings_overread); a client that keeps to the limit is read safely (C56_allowed_pings_are_safe).",
"C57": "Full.",
"C58": "False: a request cut after any header line is accepted and answered.",
"C59": "C59_only_chat_is_accepted_partial decides acceptance for all offers without white space up to 255 bytes; the answer says \"char\" where the client asked for chat (refuted).",
"C60": "Full for requests without a subprotocol header (see C10, C59 for those) and a non-empty key.",
"C61": "False: a write that ends exactly at the end of a request switches write events off although more is queued. Proved for EAGAIN and for writes ending inside a request.",
"C62": "False when the head of the queue was sent in part. Proved: its bytes are the very next ones on the wire.",
"C63": "False when the lowest colour shift is neither 0 (low bytes) nor 8 (high bytes).",
"C64": "False: bits-per-pixel 0 (or above 32) reaches abort(), a shift of 32 or more is undefined; the message is not validated.",
"C65": "Pixel values below 2^32 are not even needed; little-endian host.",
"C66": "zlib is a hypothesis of the theorem (zlib_works), shown satisfiable; compressed size below 2^32 assumed.",
"C67": "",
"C68": "C68_raw_stays_in_bounds. Offsets are unbounded integers: areas of 2^31 bytes and more are outside.",
"C69": "False: length bytes are appended without growing the vector (refuted with a witness of 425x1 pixels). Partial: no fault whenever 4wh >= pixel bytes + (16+e) per tile.",
"C70": "False for tiles of fewer than 12 bytes of pixels (must be sent uncompressed) and for client formats where the server's pixel size is not the protocol's (both refuted). Partial: everything else.",
"C71": "Proved with a tile as the atomic step of a worker.",
"C72": "False of framebuffer formats without a turbojpeg name (empty image); proved: the image is turbojpeg's output for exactly the pixels, with a name for the order of colours under which every colour is found at its byte, or empty for one of three reasons.",
"C73": "False of the 16-bit (4444) formats, whose announced channels overlap (refuted). Partial: all 24 and 32 bit formats.",
"C74": "False: the list of security types is computed at the first connection and kept, so authentication enabled later has no effect. Proved for settings made before the first connection.",
"C75": "False: bytes left in the receive buffer at the upgrade are parsed as if they had come through the encrypted channel. Proved for an empty buffer at the upgrade.",
"C76": "False for the encryption flag without the authentication flag: the server then offers only the type None. Proved with both flags.",
"C77": "False: a key nettle does not accept has size 0, and exporting it fails an assertion (writes before the allocation if assertions are off). Proved for keys whose modulus and exponent fit the key size.",
"C78": "False for ciphertexts with leading zero bytes: the length is that of the number, so the leading zeros are sent and the last bytes are not. Exact description proved; correct for ciphertexts of full length.",
"C79": "False for public keys with a leading zero byte: the assertion on the exported length fails. Proved for keys of full length.",
"C80": "False: nvnc_client_close frees the client at once and the receive loop goes on using it (wrong RSA-AES hash, failed decryption, failed TLS upgrade, failed ServerInit). Proved total for builds without RSA-AES and Apple DH if TLS and ServerInit do not fail.",
"C81": "",
"C82": "",
"C83": "",
"C84": "",
"C85": "False of the code: the damage is cleared when the frame is given to the encoder; if the encoder fails or the frame is dropped in finish_fb_update the damage is gone. Refuted with two runs. Partial: in every run in which no frame is refused or dropped a marked pixel is still marked, in a frame begun since that is on its way, or sent in a frame begun since (nested reads after fences and pixels beyond 32767 excluded).",
"C86": "The faults of the request parser (C10, C11) before the upgrade and the ping over-read (C09) after it remain; C86_only_known_faults_partial shows that no read faults for any other reason.",
"C87": "",
"C88": "False if mapping the image fails (C88_map_failure_refuted: the caller's reference is dropped) or if the server has the only reference to an image that is set again (C88_same_image_refuted).",
"C89": "False: the loop does not look at the state of the client, so the clipboard goes to connections that have not authenticated, in the middle of their handshake. The universal theorem describes it for every open connection without the extended clipboard.",
"C90": "False in two cases: the announced size leaves out the zero byte, so a strict receiver (this library's own among them) refuses the text; an empty text is not announced at all. Everything else is proved for all texts shorter than 2^32-5.",
"C91": "Proved for the server's pacing whenever the library makes a packet of every frame. False otherwise: an empty packet (encoding error) is only logged, the update never completes, so the client gets no further updates, and a frame queued behind it is never begun.",
"C92": "Key frames are exactly the prescribed ones. The reset is never announced: OPEN_H264_FLAG_RESET_CONTEXT is 0.",
"C93": "Proved for the server's pacing (one frame at a time). An encoder destroyed with a second frame in its queue leaks that frame.",
"C94": "True for FFmpeg. For V4L2 every choice is the reverse of the frame's layout: its names are read as if they were in the order of DRM's. The table for the bcm2835 driver, which is said to mix them up, is left out.",
"C95": "False: after the encoder could not be created for the display's size, a request for the whole screen reads through a null pointer; a framebuffer with a transform fails an assertion.",
"C96": "Proved except for its last part: a frame given up completes no update, so the client gets no more.",
"C97": "False when the size changes: the callback destroys the encoder whose loop then queues the buffer again. Proved for frames of one size.",
"C98": "Proved for every script, callback and event sequence; sending itself never faults.",
"C99": "False for data sent during the handshake or left queued by the unencrypted stream; proved otherwise."
}