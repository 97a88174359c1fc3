# Design

Subject: the C sources of neatvnc in /repo (pinned, read as text only).
Prover: Rocq/Coq 8.16.1, files in `rocq/theories`, logical name `Verif`.

## Conventions

* Bytes, C integers and pixel values are `Z`; byte strings are `list Z`; list positions are `nat`.
* Undefined or aborting behaviour is an explicit outcome (`Fault`), never assumed away.
* Machine wrap-around is written as `mod 2^k` where the C code relies on it or is broken by it.
* `X_Model.v`: definitions with a citation of file and lines. `X_Spec.v`: the independent specification, where one is needed. `X_Proofs.v`: lemmas. `X_Props.v`: the property theorems only, each with an `Example` meeting its hypotheses and `Print Assumptions`.
* A property that is false of the code gets a `_refuted` theorem (witness) and, where useful, a `_partial` theorem giving the domain on which it holds.

## Plan per property (written before the proofs)

* **C01 Base64 round trip and RFC 4648 conformance.** Base64.v: encode/decode as byte-list functions with the C lookup tables. Proof: induction on 3-byte groups; each group lemma by a bit-level argument.
* **C02 Base64 decoder accepts exactly the alphabet and stays in its buffer.** Same model; decode returns `None` iff some character is outside the alphabet; length bound by induction.
* **C03 Growable buffer behaves as a byte list.** Vec.v: record (data, len, cap) with explicit fault on writes past cap; refinement to `list` over operation sequences.
* **C04 WebSocket frames sent by the server are well-formed and unambiguous.** WsFraming.v: write/parse; round trip by cases on the length class with big-endian lemmas.
* **C05 WebSocket header parser is exact on client headers.** WsFraming.v + WsSpec.v (RFC 6455 encoder); prefix property by cases.
* **C06 Writing a masked WebSocket header places the key after the length.** Expected to be false (key copied to the start of the buffer): `_refuted` witness plus the unmasked case.
* **C07 WebSocket payload masking is undone exactly.** xor involution over `nth` of the key mod 4.
* **C08 WebSocket input does not depend on network segmentation.** WsStream.v: the receive state machine with an explicit 4096-byte buffer. Expected false in general (three causes): `_refuted` witnesses; `_partial` for whole-frame delivery.
* **C09 A WebSocket ping is answered by a pong with the same application data.** WsStream.v; expected false; `_refuted` witness (masked echo).
* **C10 WebSocket handshake header normalisation terminates.** Handshake.v: fuelled loop; non-termination proved for all fuel; `_partial` for blank-free values.
* **C11 HTTP upgrade request parser stays inside its field table.** Http.v: lexer and parser over a NUL-terminated string with a 32-entry table and explicit OOB fault; `_refuted` witness; `_partial` for at most 32 header lines.
* **C12 TCP stream transmits queued payloads in order without loss or duplication.** TcpStream.v: queue of requests, flush with an adversarial accepted-byte count; invariant by induction over operations.
* **C13 Every accepted send completes exactly once.** Same model; ghost log of completions; exactly-once invariant.
* **C14 RSA-AES stream framing round trip.** RsaAesStream.v: framing with the cipher as a section parameter (any length-preserving authenticated cipher keyed by a counter); round trip by induction.
* **C15 AES-EAX nonces never repeat within a session.** 128-bit little-endian counter as two wrapped 64-bit words; injectivity of counter -> nonce bytes.
* **C16 Encrypted input always makes progress.** Receive side with 8192-byte buffer; expected false for long messages; `_refuted` + `_partial` bound.
* **C17 ZRLE tiles decode to the pixels that were encoded.** Zrle.v encoder and ZrleSpec.v RFC 6143 tile decoder; round trip.
* **C18 ZRLE never overruns its palette scratch buffer.** Palette scratch size in the model; `_refuted` for 4-byte CPIXELs, `_partial` for at most 3 bytes.
* **C19 ZRLE/raw tiling covers each damaged rectangle exactly once.** Tile enumeration as list of rectangles; cover/disjoint proved arithmetically.
* **C20 Tight compact length round trip.** Tight.v: encode_size and a decoder from the RFB text.
* **C21 Tight sends every damaged pixel and counts its rectangles.** Tile grid, damage marking and finishing loops; counting lemma.
* **C22 Raw encoding transmits each pixel of each rectangle at its place.** Raw.v: row/pixel loops with an abstract pixel converter.
* **C23 Pixel conversion keeps channels apart and preserves exact channels.** Pixels.v: mask/shift/popcount conversion on Z; bit-field lemmas.
* **C24 Advertised pixel formats have disjoint channels inside the pixel.** Finite table of formats, decided by computation; expected false for 4444 formats.
* **C25 CPIXEL size agrees with the RFB specification.** Arithmetic on all byte pairs.
* **C26 Output transforms map damage to where the pixels go.** Transform.v: box transform vs. affine sampling map; case analysis on the eight transforms.
* **C27 Bandwidth estimator uses exactly the most recent sixteen samples.** Bwe.v: ring buffer refinement to `lastn 16` of the history.
* **C28 Bandwidth estimator is defined on all measurements.** Explicit DivByZero/Overflow faults; expected false; `_refuted` + `_partial`.
* **C29 Framebuffer references and holds are balanced.** Fb.v: counters with ghost history; invariants.
* **C30 Framebuffer pool never hands out a busy or mis-sized buffer.** FbPool.v: pool state machine with ghost ownership.
* **C31 Framebuffer allocation is large enough for its pixels.** size arithmetic with int overflow fault; expected false.
* **C32 No access without authentication when authentication is required.** Security.v: handshake state machine with configuration, ghost authentication log; invariant.
* **C33 Credentials travel only over an encrypted channel when encryption is required.** Same machine with ghost encryption flag.
* **C34 Credentials are handed to the callback exactly as sent.** Credentials parsers; functional correctness.
* **C35 RSA-AES challenge fits its buffer for every client key.** Size arithmetic of the challenge buffer; expected false.
* **C36 Client message handling does not depend on network segmentation.** MsgLoop.v: receive buffer + parser loop over an abstract framing function; confluence of segmentation.
* **C37 Receive-buffer index never passes the received data.** Fence message length arithmetic; expected false.
* **C38 Update requests never wedge the connection.** expected false; witness in MsgLoop.
* **C39 Key codes are translated inside the key map.** table as list; expected false for codes >= 254.
* **C40 SetEncodings keeps the supported encodings in the client's order.** SetEncodings fold; filter/firstn spec.
* **C41 Frame encoding choice respects the client's preference.** first-match search.
* **C42 Legacy cut text is delivered whole and bounded.** CutText.v: two-phase receive; independence of segmentation.
* **C43 CRLF normalisation of clipboard text.** crlf function vs. declarative spec.
* **C44 Extended clipboard messages are length-checked.** length arithmetic with wrap; expected false.
* **C45 Update header announces exactly the rectangles that follow.** FbUpdate.v: rectangle emission list vs. header count modulo 2^16.
* **C46 Damage is never lost.** FbUpdate.v: regions as sets of pixels; step machine; invariant.
* **C47 At most one update is in flight and requests are counted.** Same machine; counters.
* **C48 Fence requests are echoed once with supported flags.** Fence.v: expected false because of an assertion; partial for fences without update requests pending.
* **C49 SetDesktopSize is validated and answered.** Layout.v: parser and status function.
* **C50 Cursor encoding stays inside its buffer and round-trips.** Cursor.v: expected false; partial for widths multiple of eight.
* **C51 Damage refinement only removes unchanged tiles.** Refinery.v: hash table as function; hash abstract.
* **C52 Keyboard LED state is announced in the negotiated encoding.** Led.v: expected false for VMware clients.
* **C53 Server name is always terminated and never overruns.** strlcpy/strncpy model.
* **C54 Log filter and trimming.** Logging.v: trim functions over character lists.
* **C55 Reference-counted buffers are freed exactly once.** Rcbuf: counter machine (with C29).
* **C56 WebSocket input is handled within its buffers.** WsStream.v: invariant over the receive state; the over-read on large pings is a witness.
* **C57 Data sent to a WebSocket client is framed exactly.** WsStream.v: send and chained exec; by the header round trip of C04.
* **C58 An upgrade request is answered only when complete.** Http.v: cut requests are accepted; expected false.
* **C59 The subprotocol in the reply was offered by the client.** Http.v: witness; expected false.
* **C60 The upgrade reply carries the RFC 6455 accept token.** Http.v: parser run on the request grammar by induction over header lines; base64 by C01.
* **C61 Queued output is never forgotten.** Tcp.v: event mask as a flag; expected false when the kernel takes whole requests; `_partial` otherwise.
* **C62 Priority sends do not split other messages.** Tcp.v: expected false after a partial write; `_partial`: its bytes are the next on the wire.
* **C63 The three bytes of a CPIXEL are the ones the client expects.** Pixels_Model; the code drops the lowest shift, which is right only when it is 0 or 8: refuted plus partial.
* **C64 No client pixel format makes the server fail.** Pixels_Model: conversion with the unvalidated format; refuted with two messages, partial for bounded fields.
* **C65 Cursor transparency mask.** Pixels_Model: invariant over the pixels processed.
* **C66 A ZRLE frame reads back as the framebuffer.** Model zrle_encode_box/frame with deflate as a parameter; prove by induction on tiles and boxes that an RFC reader returns the framebuffer's pixels.
* **C67 A ZRLE tile is never larger than its raw form.** Case analysis of zrle_encode_tile over the model with sizes.
* **C68 The raw encoder stays inside its buffers.** Raw_Model.v models the reserve and the row loop with checked writes; totality by induction on rows and boxes.
* **C69 Tight output stays inside its buffer.** Model: Tight_Model. Refuted by a compressor that adds ten bytes per tile and a 4-byte-per-pixel client; partial: no fault when the buffer has room for 16+e bytes per tile.
* **C70 Tight updates without JPEG decode to the framebuffer.** Model: Tight_Model; spec: a decoder written from the protocol text. Refuted for tiles of fewer than 12 bytes and for formats whose TPIXEL size differs; partial: all other frames by induction over tiles and an interleaving argument.
* **C71 Tight output does not depend on worker scheduling.** Model: interleavings of the four workers' tile lists; proof: tiles of different columns mod 4 touch different tiles and streams, so the state is determined by each worker's own sequence.
* **C72 Tight JPEG rectangles carry an image of their pixels.** Refuted for 10-bit framebuffer formats (empty image); partial: image is the compressor's output or empty for one of three stated reasons.
* **C73 ServerInit describes the framebuffer in a format RFB allows.** Model the message as bytes and decode it with an independent reader.
* **C74 Authentication settings apply to every later connection.** Session model with the security types the server has cached; refutation by an open first connection, and the invariant of C32 for settings made before the first connection.
* **C75 Bytes received in the clear are not used once the channel is encrypted.** Every received byte carries the channel it came through; refutation by a session that sends its credentials in one packet with the message that starts TLS; invariant for sessions continuing with an empty buffer.
* **C76 Requiring encryption encrypts every session.** Session invariant relating state and channel; refutation for the flag without authentication.
* **C77 No client key stops the server.** crypto_export with its assertion; refutation with an even modulus; totality for keys whose numbers fit.
* **C78 The RSA challenge sent is the ciphertext.** Exact description of the message for every ciphertext; refutation for one with a leading zero byte.
* **C79 The Apple DH key is sent for every secret.** Exact description of the three writes; refutation for a public key with a leading zero byte.
* **C80 A connection closed by a message handler is not used again.** Handlers that close return a distinct outcome, which the loop turns into a use after free; refutation with a wrong hash; totality without these paths.
* **C81 The handshake receive loop ends and stays inside what was received.** Bound on what each handler takes, induction on the loop.
* **C82 Nothing happens after a refusal.** Invariant on the log of events.
* **C83 One authentication attempt per connection.** Invariant on the log of events.
* **C84 RSA-AES session keys are those of the protocol.** Direct proof with hash and decryption as parameters.
* **C85 Damage stays pending until it has been sent.** Same transition system as C46; refute with a run in which the encoder fails or the frame is dropped after the damage was cleared.
* **C86 WebSocket upgrade with data right behind it.** Model in WsStream_Model.v; induction over the segments with the invariant 'the buffer holds exactly what was received'; safety by an invariant over the buffer index.
* **C87 WebSocket frames without data.** Case analysis over the opcode with the header decoder's round trip lemma (C07).
* **C88 The cursor image belongs to the server exactly while it is the cursor.** Model in Cursor_Model.v over the framebuffers of Fb_Model.v; induction over the calls.
* **C89 Clipboard text only after the handshake.** Model in Clip_Model.v over the clients of Msg_Model.v; the loop by induction over the connections. Expected to be false: witness.
* **C90 Clipboard text reaches each client in a form it can read.** Clip_Model.v; readers for ServerCutText and extended clipboard messages in Clip_Spec.v; strict and lenient readers of the provided text.
* **C91 One H.264 update per frame, in order.** H264_Model.v: both layers as a state machine with a log; one invariant for the server's pacing, induction over the operations.
* **C92 A fresh H.264 stream is announced and starts with a key frame.** As C91; the list of key frames as an independent function of the operations.
* **C93 The H.264 encoder holds a framebuffer exactly while it works on it.** As C91, counting the calls in the log.
* **C94 The H.264 encoder is told the frame's memory layout.** Tables of the layouts of DRM, FFmpeg and V4L2 formats from their documentation; case analysis.
* **C95 Clients using H.264 cannot crash the server.** As C91.
* **C96 V4L2 source buffers.** V4l2_Model.v; invariant over the buffers by induction; take_src_buffer for any number of buffers.
* **C97 A V4L2 packet's callback may encode the next frame.** V4l2_Model.v; encoder objects are told apart, a use of a destroyed one is a fault.
* **C98 TLS stream transmits queued payloads in order, each completed once.** Gnutls_Model: flush with results of gnutls_record_send from a script, callbacks as action lists; invariant by induction on the script.
* **C99 Queued TLS output is never forgotten.** Invariant on the event mask; counterexample with a send during the handshake.
* **C100 A failed TLS connection is closed and reported.** Closed/told/freed as state; refuted for handshake and send; proved for reads.
* **C101 TLS input is delivered in order and without waiting for more.** Network as a list of records, decrypted bytes waiting in the session; conservation by induction, counterexample for long records.
* **C102 Only a fatal TLS error ends the session.** Counterexample with a warning alert and with a signal; the session stays open when only data arrives.
* **C103 The event loop does not use a freed TLS stream.** Freed flag in the model; counterexample with both events in one turn; no other fault.
* **C104 Each client is freed once and its cleanup function called once.** Life_Model: clients with open/closed stream and queued callbacks, the idle handlers of the event loop, ids as addresses. Invariants (accounting; calm runs) by induction on the list of operations; counterexamples for what is refuted.
* **C105 A connection that is not taken on gives everything back.** Life_Model.on_connection gives the log of what is taken and dropped; case analysis.
* **C106 A failed attempt to listen on a UNIX socket leaves nothing behind.** Life_Model.listen_unix; case analysis over the failures.
* **C107 A buffer is reported released exactly when the library stops using it.** Disp_Model: buffers of the application and of the resampler's pool (the latter with Fb_Model), the displayed frame, the works in flight, the encoders' holds. Invariant: a ledger of references and holds equal to the count of users; by induction on the operations.
* **C108 Frames appear in the order in which they were fed.** Disp_Model numbers the feeds; the numbers logged by Show are compared. Counterexamples; invariant for applications that wait.
* **C109 The damage of every buffer fed is reported exactly once.** Disp_Model: permutation between the accepted feeds and those shown or pending, by induction on the operations.
* **C110 A display may be let go at any time, and buffers are freed when nobody has them.** Disp_Model: use of the display or resampler after Gone is a fault. Counterexamples; invariant for calm runs; the ledger gives the freeing.
* **C111 A displayed frame carries the presentation time of the buffer fed.** Disp_Model logs the time of the frame with Show. Counterexamples and case analysis under the invariant.
* **C112 Input events reach the application exactly, in order.** Lemma over process_fb_update_requests (no callback, no loss of quiescence), one lemma per message, composition with the segmentation theorem of C36.
* **C113 Pixels are sent in the format the client asked for.** Decoding lemma for the message; exhaustive sweep inside the kernel for the 256 entries; invariant over all state changes (formats_changed stays set until the next frame is begun).
* **C114 Continuous updates.** Classification of every state change into eight kinds; counting invariant by induction over runs; lemma that process_fb_update_requests encodes nothing when the damage misses the area.
* **C115 A client learns of a new size.** Exact description of the first log entry of finish_fb_update; invariant on the size last told by induction over runs; damage preservation of C46.
* **C116 Only what was changed or asked for is encoded.** Transitive relation on (log, damage) proved for every kind of state change, then for steps and runs.
* **C117 Time messages are answered and harmless.** Decoding of the message, case analysis.
* **C118 The handshake follows the protocol.** An automaton of the protocol over the observable events (Hand_Spec), independent of the states of the code; invariant relating the state of a connection to the state of the automaton.
* **C119 How the network cuts the handshake into pieces does not matter.** A complete message is handled the same with more bytes behind it; the receive loop composes.
* **C120 The shared flag decides whether others are disconnected.** From the conversation of C118 and the ClientInit handler.
* **C121 RSA-AES keys come from fresh random numbers.** Invariant of the connection: the challenge is the random number drawn at the event before.
* **C122 What counts as in flight is exactly what the client has not answered.** Pace.v: pings and answers on top of the estimator of Bwe; honest client as a queue; invariant over runs. False for answers later than 2^31 microseconds (refuted); proved for timely ones; universal theorem about the overflow when the clock's sign changes.
* **C123 Frames are held back only when more is in flight than the link can take.** Pace.v: characterisation of the limit; refuted: the 33 ms are added to a number of bytes; overflow of the conversion for long fat links.
* **C124 A client that has answered every ping is not held back.** Pace.v: invariant that the estimate and the smallest round trip time are not negative; refuted for late answers and for slow handshakes.
* **C125 The ratings of formats put the one that suits the clients best first.** Rate.v: ratings as fractions; the order of ratings is equivalent to a lexicographic preference. Refuted: the 16 bit formats are announced with 21 bits, so the server's own format does not count as deep enough.
* **C126 Formats that cannot be used are rated zero, all others above zero and at most one.** Rate.v: positive iff usable, by cases over the table of formats and bit arithmetic on modifiers. Refuted: big-endian cursors are rated 0; positive ratings for formats that stop the server once a transform is set.
* **C127 Every frame taken for a client reaches it once, in order, and nothing leaks or is used after being freed.** Work_Model: one client and one encoder of each kind with reference counts, works running, buffers held and a history of frames; an invariant over all runs.  False when the second to fourth job of Tight cannot start (the buffer is released under the first), when Tight's last work cannot start (client starves, encoder leaks), and when sendmsg fails with the frame left in the queue (the update ends twice).
* **C128 A frame reaches the client with the time the application gave it.** Work_Model with the times of frames; invariant.  Refuted for Tight: the completion function clears the time after handing the frame over, by which time the next frame may have begun.
* **C129 A ping carries the size of the frame before it.** Ping_Model composes Tcp_Model.send with Pace_Model.send_ping as finish_fb_update does; exact size for every amount taken.  Refuted: only what the socket did not take is counted.
* **C130 The client's screen shows the application's picture.** Mirror_Spec defines what a client shows, from the log of the protocol model (Msg_Model): a frame paints, on the region given to the encoder, the picture the buffer showed at that moment; it may paint any further pixels of that picture (as Tight's whole tiles do). Proved by an invariant per pixel (marked, or on its way in its present contents, or shown), preserved by every input.
* **C131 RSA-AES: both sides prove their public keys.** On Auth_Model, with the key messages defined in Keys_Spec independently of the model's hashing; hash and RSA are arbitrary functions.
* **C132 Messages after a blocking fence wait, and are acted on after its answer.** On Msg_Model: a fence sets the client waiting; reads only append while it waits; the step that finishes the frame answers and continues with an ordinary read.
* **C133 Apple's Diffie-Hellman carries the user name and password.** New model of key.c over Z with the prime of the code; put into Auth_Model in place of its abstract functions; the client written from the protocol in Dh_Spec; agreement by the laws of powers modulo the prime, the rest by composition with C34.
* **C134 The RSA key an application gives is the key the server uses.** New model of the file reading with the parser of DER as a parameter, on top of the base64 model; induction on lines; composition with Auth_Model for a client that connects afterwards.
* **C135 Listening takes one descriptor and one name, and gives them back.** New model with the kernel as a record of descriptors and names and a list of answers to calls that may fail; invariant that the server's sockets are the difference to the initial world.
* **C136 Displays and servers may come and go independently.** Module Attach: a world of servers (display, clients) and displays (reference count, server back-pointer, last buffer), one step per API call or event; freed objects stay as tombs so that touching one is UseAfterFree. Invariant: reference count = references of the application + servers that show it. Induction over arbitrary sequences; what fails in general is refuted and the careful subset proved safe.
* **C137 A client's screen shows the buffers fed, turned as they say.** Module Turn on top of Refinery, Transform and Cursor: frames newest first, the screen as a function of the pixel. Induction: the hash remembered for a tile is 0 or that of the tile of the last frame; a pixel outside the reported damage is as it was. Counterexamples for a change of the transform or of the format.
* **C138 nvnc_client_get_auth_username names the user who was let in.** Module User: the name as a function of the log of the handshake (module Auth), copied as strncpy does; theorem over all sessions from the invariant of Auth.
* **C139 A viewer with one zlib stream per encoding can read every ZRLE and Tight frame it is sent.** Module Enc: clients, encoders with reference counts and an abstract compressor state; invariant client by client (history of the stream kept by its encoder), over all lists of operations.
* **C140 Encoders are counted and freed exactly.** Module Enc, same invariant: references = pointers of the owner + running work; count of clients by summing over the connections.
* **C141 A viewer never loses its place in what the server sends.** Model: Msg_Model, Clip_Model and the encoders as they are. Spec: a viewer that computes message and rectangle lengths from the protocol's text (Wire_Spec). Proof: each handler's additions to the log are whole messages for any viewer that reads forward; induction over the run; the readers of C22, C66, C21, C91 and C50 imply that the viewer finds the ends of pictures. The VMware lock-light rectangle breaks it (refuted).
* **C142 A viewer that decodes the bytes shows what the application shows.** Eye_Spec.v has a viewer that paints; Wire2_Proofs.v shows message by message which of them paint, Eye_Proofs.v that the screen so painted is the one of Mirror_Spec.v in the client's format, for frames made by the Raw encoder of Raw_Model.v. With C130 and C141.
* **C143 The H.264 hardware encoder sits on the first device that can do the job, and nothing else stays open.** Probe: the kernel's answers are a record; create logs opens, closes, mappings and formats. First-capable by induction over /dev; files open and mappings counted over the log. Refuted for a failure after the first mapping.
* **C144 No driver can make the server write outside its memory while an encoder is set up.** Probe: array writes, assert and division are faults; refuted by devices and, for formats and steps, for all such devices; partial: total under the stated conditions.
* **C145 The hardware encoder is told the pixel layout of the application's buffers.** Probe: sorting and binary search proved to decide membership; byte orders of both naming schemes written out from the kernel's headers in the spec; reversed for all eight formats.
* **C146 A viewer that decodes ZRLE shows what the application shows.** Eye2_Spec.v has a viewer for Raw, ZRLE and Tight rectangles with its zlib streams. The proof of C142 is made generic in the encoder, its state and what the viewer keeps (Eye_Proofs.v); Eye2_Proofs.v gives it the ZRLE encoder by C66's lemmas, the relation being that the streams of both ends are in step.
* **C147 A viewer that decodes Tight shows what the application shows.** Mirror_Spec.v is made general: a frame may show further pixels of the picture it was taken from; the invariant of C130 then also says that a frame on its way has the current picture at unmarked pixels. What a frame shows is read from its bytes (Eye2_Spec.touched). Frames by C21 and C70.
* **C148 A viewer shows what the application shows while it changes between encodings.** Eye3_Spec.any_frame joins the three frame relations over the pair of encoder states; the generic theorem of Eye_Proofs.v with the viewer of Eye2_Spec.v.
* **C149 A hardware encoder that cannot be made leaves nothing behind.** Hw_Model.create with the answers as a record and what is held, with reference counts, as another. Case analysis of the stages; attempts in a row by induction. False if the codec does not open: the filter graph stays, and with it the device (`_refuted`); true otherwise.
* **C150 The hardware encoder uses a device that is there.** Hw_Model.find_render_node over buffers of possibly uninitialised bytes; strncpy; a C string is read from it.
* **C151 Encoded packets are whole and descriptors are closed.** Hw_Model.works; induction over the frames.
* **C152 Buffers in graphics memory are read only where they are mapped.** Gbm_Model: one framebuffer with its counts, address, handle and the driver's mappings; its users as a transition system in which a worker's nvnc_fb_map is three steps. Invariant: counts are those of the users, there is exactly the mapping of the handle, at most one work is about to map.
* **C153 Mappings of buffers in graphics memory are undone.** Gbm: the list of mappings the driver has made and not been told to undo.
* **C154 Pixels of buffers in graphics memory are read where they are.** Gbm: the stride in pixels computed by nvnc_fb_map, kept as an invariant of undisturbed executions, against the position in bytes.
* **C155 What the application feeds to the display is what the viewer shows.** Put the display model of C137 in front of the message loop of C130: a function turns feeds and other events into the inputs of the client's code. Prove that pixels change only where the transformed refined damage says so, which is the condition of C130, and conclude with C148.
* **C156 The log names the address every new client connects from.** Peer_Model: sockaddr_storage as bytes that may be unwritten, getpeername as an optional result, inet_ntop for IPv4 in decimals and for IPv6 a parameter, the buffer of INET6_ADDRSTRLEN bytes, and the log filter.  IPv4 text is read back by an independent reader in Peer_Spec.
* **C157 What a viewer gets does not depend on the kind of stream.** Net_Spec: one relation `carried` with a case for each stream, in terms of the models Tcp, WsStream, RsaAes and Gnutls and the readers of Ws_Spec and RsaAes_Spec.  The frames the viewer finds are unique because a header determines its length (C05).  Composed with C155.
* **C158 A client that connects over WebSocket can use the security types it is offered.** Mix_Model: the layer in charge of the bytes after a type was chosen, made of WsStream_Model and RsaAes_Model; GnuTLS by the first byte of its records.  Mix_Spec: which frames RFC 6455 lets follow a complete message.  The first byte decides in one direction; in the other, a frame header read as a length is more than the buffer of RSA-AES holds.
* **C159 A client that follows the protocol is not taken to have hung up for lack of room.** No new model: Msg_Model has the buffer of 4096 bytes and the read of size 0 that the TCP stream reports as the end of the connection. Partial: for messages that fit, from C36. Refuted: a client waiting for a fence. Universal: SetEncodings with 1024 encodings or more, and any 4096 bytes sent while waiting, end the connection at the next byte.
* **C160 What a client says reaches the application the same through every kind of stream.** Talk_Model: the receive loop of the server over a read function, with one for each kind of stream made of WsStream_Model, RsaAes_Model and Gnutls_Model.  One induction for any stream that hands out the bytes given enough room; C36 gives the room and the final state.  Refuted by a cut inside a masked payload (C08).
* **C161 A whole connection, from the greeting to the events.** Serve_Model joins Auth_Model and Msg_Model by the receive loop on top of the streams of Talk_Model. The receive loop of the handshake is shown to give the same on a beginning and the rest as on all at once, with the same bytes left; an invariant tells where in the bytes the connection is. The second part reduces each run to reads of Auth_Model (C32, C118).
* **C162 Credentials are taken once, kept while they are needed, and given back.** Module Creds: a process with servers, credentials, keys and sessions; invariant (credentials and keys are a permutation of those the servers hold, addresses distinct, sessions refer to their server's credentials) kept by every call; specification from the history of calls and return values only.
* **C163 FFmpeg's messages obey the application's log level.** Module Avlog on top of Log: the two translations as functions; specification is FFmpeg's documented rule; case analysis over the documented levels, a lemma for all others.
* **C164 A client's messages never make the server fail.** On the model of messages and updates (Msg), a driver that feeds any bytes of a stream of messages in any pieces, mixed with any other input. Invariant: nothing or a cut text is half received, no fence is waited for, and the size of frames is either fixed and known or can be told; every message handler and every other event keeps it. The full claim is refuted by a client that lists the extended desktop size, asks for the whole screen and then lists other encodings.
* **C165 A client is sent only the extensions it has listed or used.** An invariant over the driver of C164: the encodings kept are those of the last list received, and every entry of the log is accounted for by a prefix of the messages received. Lock lights break it: the rectangle always has QEMU's type, also for a client that has listed only VMware's.
* **C166 The application may use the library from within its callbacks.** Model React: the handlers of Msg_Model.v with a list of calls, chosen by an arbitrary function of the history, made at each callback. The invariant of C164 carried through them. Refuted for nvnc_client_close, which frees the client at once while the caller of the callback goes on using it.
* **C167 Clients do not disturb one another.** Model Many: a list of clients of Msg_Model.v around one copy of what belongs to the server; the code of a client reads it from there and writes it back. A frame lemma for every handler (none changes what is shared), from it a simulation between the life of one client in the list and its life alone; failures by going back to the client's joining.
* **C168 A query in the address makes no difference to an upgrade request.** Http_Model as it is; the parser on a request line with a query by induction over path segments and name=value pairs, the header lines as for C11; compared with the request without query as an equation of answers.
* **C169 Nothing of an altered or forged message is acted on, and it ends the connection.** Talk_Model (Msg on top of RsaAes and WsStream) with any bytes from the network; invariant: bytes read into the buffer decode to what has been handed over. Decoding of an altered stream yields a prefix of what was sent.
* **C170 The colours on a viewer's screen are those of the application's buffers.** On top of C148 and C155: a viewer that keeps colours instead of bytes paints the same places; by C13/C24 the bytes it reads are the rescaled channels.
* **C171 The layout accessors tell what the client asked for.** The layout as an object in memory whose entries are unset until written; invariant of the loop that fills it, then the accessors on it; agreement with the message handler of C49.
* **C172 Secret numbers are random.** Model crypto_random with the kernel's answer as a parameter and memory whose bytes may be unset; put it under the handshake of Auth_Model. Prove that full answers are all that gets into the secret and the keys; describe and refute the rest.
* **C173 Whether H.264 is available is found out once.** State machine with the static variable, the encoders alive and a log; whether an implementation works at a time is a parameter. Invariants by induction over the questions and encoders.
* **C174 A stream releases every buffer it is given.** On Tcp_Model: a buffer is released with its request. Count what is given against the requests finished, from the invariant of C13; show what becomes of buffers given to a closed stream.

## Trusted base

* The kernel of Coq 8.16.1 (`coqc`; `coqchk` re-checks the compiled files).
* `Print Assumptions` stands after every property theorem. For each of them it prints `Closed under the global context`: no theorem uses an axiom, not even one of the standard library.
* `coqchk -o` names axioms of `Coq.ssr.ssrunder` (`Under_rel` and its companions). They belong to a library file that comes in with `Lia`; no theorem here uses them, as `Print Assumptions` shows.
* The reading of the C sources. The models were written by hand from the text of /repo; nothing checks them against the compiled code. Every definition of a `*_Model.v` file cites the lines it renders (`tools/cites.py` lists definitions that do not). The head of each file names its simplifications.
* The specifications: the `*_Spec.v` files and the definitions in the `*_Props.v` files. They render RFC 6143, RFC 6455, RFC 4648 and the community RFB specification, from memory.
* The behaviour of what is outside the code, given as parameters or hypotheses of the theorems: the kernel's sockets, zlib, libjpeg-turbo, pixman's regions, nettle, GnuTLS, XXH3, the application's callbacks.
* The host is little-endian, `int` has 32 bits, `size_t` 64. `assert` is compiled in.

### What is modelled

| Source | Model | Left out |
|---|---|---|
| src/base64.c | Base64 | |
| src/vec.c | Vec (and `tvec` in Zrle for the encoders) | |
| src/bandwidth.c | Bwe | conversion to and from double is exact arithmetic |
| src/server.c:304-314, 598-614, 908-920, 1788-1832, pings and the bandwidth limit | Pace | doubles exact; the client is a queue of unanswered pings |
| src/enc/interface.c, the main thread's part of src/enc/raw.c, zrle.c, tight.c, and src/server.c:164-203, 771-826, 863-959, 2438-2559 around them | Work (references, works, held buffers, times), Ping (size after a write) | one client with one encoder; what the threads compute (Raw, Zrle, Tight); memory for anything but works is there |
| src/logging.c | Log | the output stream, the level per module |
| src/pixels.c | Pixels, Cursor (pixman table), Msg (colour map), Rate (rating of formats, with src/server.c:2951-2993; doubles exact) | strings for logging |
| src/transform-util.c | Transform | |
| src/fb.c, src/fb_pool.c, src/rcbuf.c | Fb | GBM buffers, mapping |
| src/damage-refinery.c | Refinery | |
| src/cursor.c | Cursor | |
| src/resampler.c | Cursor (`resample_now`), Disp (feeding, works in flight, side data list) | failing to allocate the side data, reading and writing of pixels by the worker (content: Cursor) |
| src/display.c | Disp, Refinery (feeding damage), Transform | user data, position |
| src/desktop-layout.c; src/server.c:1592-1634 as an object in memory | Msg, Layout | malloc succeeds |
| src/qnum-to-evdev.c | Msg | |
| src/enc/util.c, raw.c, zrle.c, tight.c | Raw, Zrle, Tight | worker threads, except the order of Tight tiles |
| src/enc/h264 | H264, V4l2, Probe | FFmpeg and V4L2 themselves, setting up FFmpeg |
| src/stream/tcp.c, common.c | Tcp | ownership of the file descriptor |
| src/stream/gnutls.c | Gnutls | GnuTLS itself; failures while setting up the session |
| src/stream/ws/* | Ws, WsStream, Http | |
| src/stream/rsa-aes.c, src/crypto/nettle/cipher.c | RsaAes | the ciphers themselves |
| src/auth/*, src/crypto/nettle/{rsa,hash}.c | Auth | the primitives |
| src/crypto/nettle/rsa.c:70-139, src/server.c:2936-2950, the server's RSA key | Pem | nettle's DER parser |
| src/crypto/nettle/key.c, AES-ECB in cipher.c | Dh | GMP's numbers are Z; MD5 and AES are parameters |
| src/server.c:2106-2355, 2381-2394, listening | Listen | the kernel is a record of descriptors and names |
| src/display.c, src/server.c:2358-2411, 2702-2722, displays of servers | Attach | what is encoded and sent; the resampler delivers at once |
| src/display.c:112-146 with the refinery, the transforms and the resampler | Turn | each frame is done before the next; encodings |
| src/auth/common.c:53-65, src/server.c:2735-2740 | User | the handshakes themselves are in Auth |
| src/server.c:164-203, 771-826, 863-959, 2447-2559 and src/enc/interface.c, encoders of clients | Enc | zlib is a parameter; the next update that completing one may start is a step of its own; send errors; half started Tight frames |
| all messages after the handshake | Wire (over Msg, Clip, Raw, Zrle, Tight, H264, Cursor) | (handshake: Hand, Init) |
| what a viewer draws from those messages (Raw, ZRLE, Tight) | Eye, Eye2, Eye3 (over Wire, Mirror, Raw, Zrle, Tight) | JPEG and H.264: frame by frame only (C72, C91) |
| making, using and destroying the VAAPI encoder (src/enc/h264/ffmpeg-impl.c) | Hw | FFmpeg, GBM and libdrm are answers; references inside FFmpeg |
| mapping buffers in graphics memory and their users' interleavings (src/fb.c with HAVE_GBM; calls of nvnc_fb_map and nvnc_fb_unmap) | Gbm | what gbm_bo_map answers is an input; a worker's nvnc_fb_map is three steps, everything else one |
| the display in front of the clients (src/display.c 31-51, 112-146, on top of Turn and Msg) | Feed | each frame is refined and turned before anything else happens (the order of such works is in Disp); one client; buffers in ordinary memory |
| the line logged for a new connection (src/server.c:2064-2073, 2087-2105) | Peer | inet_ntop of IPv6 is a parameter whose result is a text that fits; getpeername's outcome is a parameter |
| the four kinds of streams together | Net | nothing new is modelled: `carried` puts Tcp, WsStream, RsaAes and Gnutls side by side; only stream_send, one direction |
| security types over WebSocket (src/stream/rsa-aes.c:185-211, src/stream/gnutls.c:248-292, src/stream/ws/ws.c:293-314) | Mix | the layers are those of WsStream and RsaAes; of GnuTLS only that its records start with a content type; the memory the structures share is not modelled (the larger one is allocated) |
| reading from a client through each kind of stream: `src/server.c:1938-1995` over `src/stream/tcp.c:196-215`, `ws/ws.c:214-230`, `rsa-aes.c:120-148`, `gnutls.c:190-219` | Talk | one read for each piece that arrives; what the server sends back meanwhile does not come into the stream's reading side |
| src/server.c: the callbacks at 998, 1027, 1052, 1093, 1260, 1378, 1490, 1629 | React | the application's calls are chosen by any function of the history; nvnc_client_close inside a callback is `Fault UseAfterFree` (what follows each callback uses the client: 1000-1006, 1493-1495, 1631-1634, 1985) |
| src/server.c 406-418, 480-502, 2625-2636, 2927-2933 over all clients; include/common.h 171-211 | Many | clients join when their handshake is over; the cursor is its number; nvnc_send_cut_text is not an event; each client has its own clock and encoders (an `env` per client) |
| a connection from the handshake to the messages, src/server.c 480-502, 1904-1995 | Serve | the handshake of Auth_Model and the messages of Msg_Model on one buffer; the framebuffer shown does not change during the handshake; the application does not close the client in new_client_fn |
| src/server.c 2215-2230, 2358-2411, 2842-2884, 2936-2950; src/stream/gnutls.c 255-292; src/auth/rsa-aes.c 24-38 (who owns credentials) | Creds | GnuTLS and Nettle seen from outside: a count of initialisations, objects that exist or do not; the contents of files are numbers; making an RSA key does not fail |
| src/crypto/random.c; src/crypto/nettle/key.c 104-109; src/auth/rsa-aes.c 62 | Rand | the kernel's answer is a parameter, memory is a list of bytes that may be unset; numbers drawn inside Nettle are not modelled |
| src/server.c 122-139; src/enc/h264/encoder.c 28-54 | Avail | encoders are seen from outside; whether one can be made at a time is a parameter |
| src/logging.c 130-215 | Avlog | FFmpeg calls the installed function for every message |
| src/server.c | Init, Auth, Msg, Clip, Cursor, Life | timers, user data |

Not modelled at all: src/pngfb.c.

## Findings

Behaviour of the code that contradicts what a user would expect. Each has a theorem (a `_refuted` witness, or a theorem describing all cases) unless marked *reading*.

Reachable by an unauthenticated or ordinary client, memory safety or availability:

* White space in a WebSocket handshake header value hangs the server (C10).
* A request with 33 header lines writes outside the field table (C11); a request cut after any header line is already answered (C58).
* A WebSocket ping larger than the buffer makes the pong read outside it (C09, C56); masked pings are echoed masked.
* RSA-AES: a client key of 1023 to 2046 bytes overflows a buffer on the stack (C35); a key nettle refuses fails an assertion (C77); leading zeros in keys and ciphertexts fail an assertion or corrupt the message (C78, C79).
* nvnc_client_close inside a handler frees the client, the receive loop goes on with it (C80, C42).
* A client that hangs up while its last message (a refusal) is queued is freed twice; so is one closed by the application, by another client's exclusive access or by nvnc_del between the hang-up or refusal and the next turn of the event loop (C104).
* A connection before the first frame closes its descriptor twice, one before the first display uses a null pointer (C105).
* A read error in a turn of the event loop that also finds the socket writable uses the freed stream (C103).
* SetPixelFormat is not validated: abort, undefined shifts, wrong pixel sizes (C64, C25, C63).
* ZRLE writes past `cpalette` for four-byte CPIXELs (C18); Tight writes past its vector for narrow tiles (C69).
* QEMU key codes of 254 and above read past the table (C39).
* Extended clipboard: announced lengths of 1 to 3 and of 2^31 read outside or overflow (C44); *reading*: up to 4 GB are allocated for one message.
* A fence while a request is outstanding aborts; a second fence overwrites the first; fences that arrive in pieces are misread (C48, C37).
* A first fence response faster than the handshake divides by zero (C28).
* An incremental request while continuous updates are on stays in the buffer for good (C38).

Correctness:

* WebSocket: masking phase, cut headers and empty frames depend on segmentation (C08); the subprotocol answer is "char" (C59); writing a masked header overwrites its start (C06).
* TCP stream: a write that ends exactly at the end of a request stops the queue (C61); urgent data after a partly sent request splits it (C62); callbacks can make it use freed memory (C13).
* TLS stream: data sent during the handshake is forgotten (C99); a failed handshake leaves the connection open for ever, a failed send closes it without telling (C100); the rest of a record longer than the free buffer space waits for more data (C101); warning alerts and signals drop the client (C102).
* RSA-AES stream: messages over 8174 bytes are never delivered, complete messages are left behind (C16).
* The 4444 formats announce overlapping channels (C24, C73); big-endian framebuffers are converted as little-endian (C23).
* Security types are computed once (C74); bytes before the TLS upgrade are taken as encrypted (C75); the encryption flag alone offers no encryption (C76).
* Tight: coordinates wrap above 32704 (C21), tiles under 12 bytes are compressed (C70), formats without a JPEG name give empty rectangles (C72).
* Transforms of 32768 and more overflow (C26); framebuffer sizes overflow (C31); buffers wider than 32767 lose damage (C46).
* Clipboard from the application: sent to connections that have not authenticated (C89); the size of a provided text leaves out its zero byte, an empty text is not announced (C90).
* H.264: an empty packet stalls the client (C91); the decoder is never told to reset (C92); queued frames leak on destruction (C93); V4L2 formats reversed (C94); null pointer after a failed creation, assertion on transforms (C95); frames dropped without an update (C96); use after free when the callback changes the size (C97). Not modelled: find_render_node returns bool, so its -1 is never negative (src/enc/h264/ffmpeg-impl.c:493-511).
* Cursor: mask overflow, images without alpha, 16-bit images, hotspot, assertion when transformed (C50); reference counts (C88).
* Damage refinery: reads outside for damage outside the buffer, 32-bit hashes drop changes, a first hash of 0 is left out (C51).
* Frames dropped or failed lose their damage (C85); messages handled from inside the completion of another (C47); 65534 rectangles wrap (C45).
* Displays: feeding the displayed buffer again reports it released and clears its time (C107, C111); rotated frames can replace newer ones (C108), have no time (C111), and failed feeds lose damage silently (C109); letting the display go while a copy is made, or before its rotated buffers are freed, uses freed memory (C110).
* Sizes and areas: a client without resize support is closed and used after a size change (C115); clients with the extended desktop size get the whole screen after every full request (C116); continuous updates send changes outside their area along, and a full request outside it stays unanswered (C114); colour map clients always get 8-bit pixels (C113); chosen times overflow (C117).
* Listening on a UNIX socket can fail and leave its name behind (C106).
* A lone CR becomes LF in the clipboard (C43); the quality level is ignored after the 32nd encoding (C40); the VMware LED state is sent with the QEMU number (C52).
* *reading*: a failing rsa_encrypt sends one byte 0xff; security_handshake_failed passes a NULL user name to `%s`; the client's RSA key is never freed; the JPEG subsampling for quality 9 is never chosen.
* **C122** An answer to a ping that comes 2^31 µs or more after the ping has a negative round trip time as the 32 bit clock has it, is thrown away, and the frame's bytes stay counted as in flight for ever. If the low 32 bits of the clock, taken as signed, change sign between ping and answer, `now - departure_time` overflows (once every 71 minutes for every client).
* **C123** `max_delay + 1e-6 * min_rtt * bandwidth` adds seconds to bytes; the 33 ms of slack that were meant are 0.033 bytes. The conversion of the product to `int` overflows for long fat links.
* **C124** After such a late answer, or when two messages of the handshake are 36 to 71 minutes apart (somebody typing a password late: `min_rtt` becomes negative), nothing is outstanding and yet every frame is held back, for the rest of the session.
* Ratings: a client that takes the server's own 16 bit format counts as 21 bits deep, so the server rates 24 bit formats above its own (C125); big-endian cursors with alpha are rated 0; formats that pixman does not have, or big-endian ones, are rated above 0 and stop the server once a transform is set (C126).
* **C127** Tight: when the second, third or fourth `aml_start` fails, the buffer is released and the output freed while the jobs already started use them. When the last work cannot be made or started, the frame is never finished: the client stays "updating" for ever, and in the second case the encoder's reference is lost. A `sendmsg` error other than EPIPE or EAGAIN is reported to the caller but the frame stays queued, so the update is completed twice; the second time ends the next update early, and ZRLE then fails `assert(!self->current_fb)`, Raw loses a frame.
* **C128** `on_tight_finished` sets `pts` to NVNC_NO_PTS after handing the frame over; if that wrote the frame in full and began the next one, the next one's time is lost.
* **C129** The size in a ping is read from the frame's buffer after the write; a partial write has shortened it, so only the unsent rest is counted, and the bandwidth estimate is too small by as much.
* **C130** A frame thrown away because the client changed its encodings or pixel format while it was being made takes its damage with it: the client keeps showing the old picture with nothing marked and nothing on its way, although it has asked for an update (`C130_screen_shows_picture_refuted`).
* **C131** RSA-AES: the server hashes the client's key in a normalised form (size of the modulus as nettle counts it) instead of the message it received. A client that sends its key with a leading zero byte, or with a size in bits that is no multiple of 8, computes another hash and is disconnected.
* **C132** `on_client_event` returns early when there is nothing more to read, also when it is called to go on after a fence: messages kept while the client waited stay in the buffer until the client sends more. A fence with BLOCK_BEFORE, BLOCK_AFTER and SYNC_NEXT does not block (`flags == 3` is compared).
* **C133** One Diffie-Hellman public key in 256 begins with a zero byte; `crypto_key_q` then returns 255 or less and `apple_dh_send_public_key` fails `assert(q_len == sizeof(q))`: any client that chooses the type often enough ends the process. *reading*: `remote_key` is not freed, one leak per attempt; the result of `getrandom` is not looked at.
* **C134** nvnc_set_rsa_creds: lines ended by CR LF are refused (the carriage return is no base64 character), so is text before the BEGIN line; an empty file is never closed; a call that fails has already deleted the old key and leaves an empty one, with which the next client that chooses RSA-AES fails the assertion in `crypto_export`. *reading*: the END line is not required.
* **C135** When listen() or the event loop refuses a Unix socket, `nvnc_listen_unix` removes the name only for WebSockets (`if (type == NVNC_STREAM_WEBSOCKET)`); for the normal type it stays and every later attempt fails. The result of `aml_start` is ignored. nvnc_del removes the path by name, also when another socket has been bound to it since. A descriptor given to nvnc_listen is closed by nvnc_del, though not when nvnc_listen fails.
* **C136** `nvnc_remove_display` and `nvnc_del` leave `display->server` as it is: a display kept by the application after nvnc_del is fed into the freed server, nvnc_display_get_server returns it, and a display that was removed still makes the server send updates of the next one. `nvnc_del` drops the display first and then runs the event loop in `client_drain_encoder`, with `self->display` dangling and the listening sockets open. A display that was not added fails `assert(server)` when fed. A connection to a server without display dereferences NULL. Two servers may show one display, but only the one it was added to last gets its frames.
* **C137** The refinery hashes the bytes of the buffer fed and knows neither transform nor format. A picture that is turned (by 180 degrees, mirrored, or by 90 if square) or gets another format with the same bytes is found unchanged, whatever the application says to be damaged, and clients keep the old picture. *reading*: `resampler_feed` sets its side data on the source and `do_work` asks the destination for it; it gets NULL, takes the address of the first field, which is NULL again, and so draws the whole frame, which is what makes reuse of the pool's buffers right. The side data occupy the user data of the application's buffer: nvnc_get_userdata returns them, and an application that sets its own afterwards makes them leak. A turned buffer in a format that pixman has no name for, aborts the server at an assertion in the resampler, src/resampler.c:110-113 (`C137_turned_unknown_formats_abort`).
- **C138**: a user whose name is empty and whom the application approves is afterwards not
  told from one who was never asked: `nvnc_client_get_auth_username` returns NULL for both
  (`C138_approved_names_are_known_refuted`). *Reading*: `security_handshake_failed` without a
  name (src/auth/common.c:30-31) passes the name, NULL, for the only `%s` of its message and
  the reason is dropped.
- **C139**: `finish_fb_update` throws a finished frame away if the client changed pixel format or
  encodings meanwhile and does not know Fence.  The ZRLE or Tight encoder is kept for its zlib
  stream, which has advanced by that frame; later frames refer to data the client never got
  (`C139_viewer_reads_every_frame_refuted`; `C139_thrown_frames_stay_in_the_stream` in general).
  *Reading*: the same happens to an Open H.264 frame; a key frame is asked for only when
  the client sends a full request (src/server.c:991).
- **C140**: without memory for a client's first ZRLE or Tight encoder, `ensure_encoder` calls
  `encoder_ref(NULL)` before it looks at the pointer
  (`C140_no_encoder_is_used_after_it_is_gone_refuted`).
- C141: a viewer that offers the VMware lock-light encoding and not QEMU's is sent the QEMU encoding's number followed by four bytes (src/server.c:2788-2809, see C52). It takes one; the other three are read as the start of the next message, and everything after them is misread. Apart from that, from frames of more than 65533 rectangles (C45) and from cursor images without the reserved room (C50), nothing the server sends after the handshake can make a viewer lose its place.
- C143–C145, V4L2 set-up: An encoder whose buffers cannot all be mapped, or whose
  device fails a later step, closes the file but leaves the buffers mapped so far mapped
  (v4l2m2m-impl.c:686 and 700-704). `get_supported_formats` ignores `max_len`: the 257th format is
  written past `formats[256]`; REQBUFS may answer with more than the three buffers asked for,
  `dst_bufs[3]` is written, or fewer, the assert in `enqueue_dst_buffers` fails; a size
  range with a step of zero (drivers may leave it so for continuous ranges) divides by zero.
  `v4l2_format_from_drm` pairs formats by name (XRGB8888 with XRGB32), but DRM names from
  the most significant bits of a little-endian word and V4L2 from the first byte: the
  format chosen always has the bytes in reverse.  For bcm2835 the format is not looked up.
* **C149** If the codec context cannot be allocated or opened, the filter graph is not freed (src/enc/h264/ffmpeg-impl.c:578-583), so that the device stays open; each further attempt (one per frame, src/enc/h264/open-h264.c:138) keeps one more (`C149_devices_pile_up`).
* **C150** `find_render_node` has its result in a `bool`: -1 becomes 1, which the caller's `< 0` does not see (src/enc/h264/ffmpeg-impl.c:494, 533). Without a render node the uninitialised buffer is used as a path (`C150_no_render_node_reads_garbage`).
* **C152** `nvnc_fb_map` runs in worker threads without a lock (src/fb.c:254-265): a second encoder can see `bo_map_handle` before `addr` is stored and read at NULL (`C152_two_encoders_refuted`). The V4L2 encoder calls `nvnc_fb_unmap` when it gives a buffer back, whoever else is reading it (src/enc/h264/v4l2m2m-impl.c:390, `C152_giving_back_breaks_readers`). Damage refinement and the resampler ignore a failed mapping (`C152_failed_mappings_are_not_noticed`); for formats without a known pixel size the stride is computed by a division by zero (`C152_unknown_formats_divide_by_zero`).
* **C153** Two encoders that find the buffer unmapped both map it; the first handle is overwritten and never unmapped (`C153_mappings_are_undone_refuted`).
* **C154** `nvnc_fb_map` turns the pitch into a stride in pixels by a division that drops the rest; with three bytes per pixel and the usual pitches every row but the first is read too early (`C154_other_pitches_miss`).
* **C156** the line logged for a new client reads `ip_address`, a buffer only written for IPv4 and IPv6: a client of a UNIX socket gets whatever was on the stack (when lines of level INFO are logged, as in debug builds by default).  When getpeername fails, because the client is gone, `sa_family` itself is read uninitialised.
* **C158** RSA-AES and VeNCrypt do not work over WebSocket: `stream_upgrade_to_rsa_eas` and `stream_upgrade_to_tls` replace the functions of the stream, so that the framing is gone.  The server's next message is no acceptable frame; a frame of the client is taken for a message of 32768 bytes or more, which the buffer cannot hold.  With `NVNC_AUTH_REQUIRE_ENCRYPTION` these are the only types offered, so that nobody gets in over WebSocket.
* **C159** The receive buffer has 4096 bytes and a message is not looked at before all of it is there; when the
  buffer is full the next read asks for 0 bytes, gets 0, and the TCP stream reports the end of the connection. A
  client that offers 1024 encodings or more, which the protocol allows, is therefore thrown out, and so is one that
  sends 4096 bytes (683 pointer events) while a fence of its own that blocks is waiting for a frame to be encoded.
* **C160** The failures of the streams (C08, C16, C101) reach the application: over a WebSocket, a key press whose frame is cut
  inside its payload is reported as another key (`C160_messages_through_any_stream_refuted`).

* **C161** the handshake and the messages together: bytes that come with the request for TLS are kept in the buffer and used after the upgrade as if they had come through TLS, so how the network cuts the bytes makes a difference (C161_whole_connection_refuted; the same cause as C75).
* **C163** A VERBOSE message of FFmpeg is passed on as information although `nvnc_set_log_level(NVNC_LOG_INFO)` tells FFmpeg to leave it out (`AV_LOG_INFO`); a message whose level carries colour bits (`AV_LOG_C`) or lies between the named ones, even an error, is taken for a trace message and dropped.
* **C164** A client that lists the extended desktop size (-308) and asks for the whole screen makes the
  server forget the size it knows (src/server.c:1000-1004). If it then lists encodings without either desktop
  size, the next frame counts as a new size the client cannot be told: it is closed and used afterwards
  (src/server.c:2507-2530), although the display never changed its size.
* **C165** A client that has listed only VMware's lock lights (1464686184) is sent a
  rectangle of QEMU's type (-261), which it never listed, with a body of VMware's size
  (`src/server.c:2771-2815`).
* **C166** `nvnc_client_close` cannot be called from a callback about that client. It frees the client at once (server.c:164-203, 2755-2759), and every place that calls a callback goes on with the client: process_fb_update_requests after requests, `client->cut_text` after long cut texts, the client's socket and message buffer after all others. An application that drops a client at a key press or a cut text has a use after free. Closing would have to be deferred, as `defer_client_close` does for the library's own uses.
* **C168: queries after a slash, or with an equals sign in a value, make an upgrade request be refused.** `http__url_path` takes anything but a literal or white space after a slash for an error, so `GET /?token=abc` is refused whatever follows (`C168_root_with_query_is_refused`), and `http__url_query` expects `&` or the end after a value, so a token with base64 padding is refused too.
* **C169: good messages are lost with an altered one.** Over RSA-AES, authentic messages that are taken by the same `stream_read` as an altered one are dropped with it (rsa-aes.c:135-139 returns -1 and forgets `total_read`); proved with a key press. Over a WebSocket, a frame of an unknown kind makes `stream_read` return -1 without setting errno, so whether it closes the client depends on what errno was left at (ws.c:128-133, server.c:1961-1969); C169 states the closing for errno other than EAGAIN.
* **C172: the result of `getrandom` is not looked at** (`src/crypto/random.c:26`). If it fails or is cut short, the missing bytes of the server's number for RSA-AES are zero and the connection goes on (`C172_keys_without_random_numbers`), and the secret for Diffie-Hellman is read from stack memory that was never written (`C172_secret_of_unwritten_memory`).
* **C173: one failed try rules H.264 out for good.** `have_working_h264_encoder` keeps the result of its first try with 1920 by 1080 pixels (`src/server.c:122-139`); if that fails, for a passing reason or because the hardware takes smaller pictures only, no client is ever sent H.264 (`C173_answer_can_be_outdated`).
* **C174: what is written to a closed stream leaks.** `stream_tcp_send` refuses a buffer on a closed stream without releasing it (`src/stream/tcp.c:220-221`), and `stream_write` forgets the buffer it made (`C174_given_when_closed_is_lost`).

## Testing the theorems

`seeded/LOG.jsonl` has one line per wrong program tried: the definition, the edit, the claim it should break, the theorems that no longer hold, and the theorems tightened when none or only a weak one failed. `round` 2 means the edit was tried again after tightening. In a scratch copy of the development the edit is made, everything is rebuilt, every proof that breaks is replaced by an admission, and the property theorems that then depend on an admission are the ones listed.
