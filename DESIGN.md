# Formal model of liveMediaStreamer: design

This directory holds a Rocq (Coq 8.16.1) model of the code in `/repo/src` and
machine-checked theorems about it.  `properties.jsonl` lists the properties in
English, `MANIFEST.json` maps each one to theorem names, this file says what is
modelled, how, and what is trusted.

## How the development is organised

For each area `X` of the code:

* `XModel.v`  – executable Gallina functions, one per C++ function, each with a
  comment giving file and lines. No proofs of properties.
* `XSpec.v` – (where needed) the independent specification: the abstract
  object or reference decoder the property talks about. It does not import the model.
* `XProofs.v` – lemmas.
* `XProps.v` – only the property theorems, closed by `exact`, each with an
  `Example` showing the hypotheses are met, and `Print Assumptions`.

Undefined behaviour (null dereference, out-of-bounds access, use after free,
division by zero, non-termination) is a distinct outcome of the model, never a default
value.  Where the code violates a property, the theorem is named `..._refuted`
and exhibits the violating input; the strongest true version is proved next to it
(`..._partial` if it is weaker than the English property).

## Plan per property

| Property | What is modelled | How it is proved |
|---|---|---|
| C01 bounded FIFO | `AVFramedQueue` ring indices with the code's modular arithmetic, slots as an array | refinement to a bounded list, induction over operation lists |
| C02 no aliasing | same model | invariant: offered slot index is outside the pending range |
| C03 forced writes | `forceGetRear`/`doFlush` with fuel and explicit `Diverges`, `DivByZero` | refinement for capacity >= 2; refuted for capacity 1 |
| C04 concurrent queue use | small-step machine; one load or store per step | invariant over all interleavings; forced writer refuted by a schedule |
| C05 queue lifetime | small-step machine of both disconnect paths | invariant over all interleavings; leak refuted by a schedule |
| C06 shared reader | per-filter flags, `ready`, cached frame over an abstract queue | invariant over operation lists |
| C07 audio re-framing | byte ring per channel with monotone counters | refinement to a byte FIFO per channel |
| C08 audio timestamps | deviation/padding logic of `addFrame`, `getFront` timestamps | refinement to a timeline of samples |
| C09 sliced queue | slice loop over the ring | induction over slices and operations |
| C10 one worker per filter | pool transition system, critical sections atomic | invariant over all schedules |
| C11 no lost wake-up | same | refuted by a schedule; restricted version proved |
| C12 removed filters do not run | same | refuted by a schedule; restricted version proved |
| C13 event order | priority queue, delays, clock readings | induction over operations |
| C14 identifiers and references | filter map, path map, id checks | invariant over command lists |
| C15 failed commands change nothing | same plus connections | refuted by a command; proved per command where true |
| C16 stop | same, freed objects tracked | refuted for two paths; proved otherwise |
| C17 input limits | reader map of a filter | invariant; refuted for shared readers |
| C18 JSON round trip | writer and parser, byte level | induction on the tree |
| C19 robust parsing | same | structural termination, explicit out-of-range outcome; history dependence refuted |
| C20 names | every string/enum conversion | finite case analysis plus a lemma on all other strings; pixel formats refuted |
| C21 init segments | every `write_*` as a byte-producing function | independent box parser accepts, all sizes exact |
| C22 media segments | `segmentGenerator` and sample table | independent demuxer returns the samples |
| C23 segmentation | `i2libdash` state machine | invariant over frame lists |
| C24 NAL framing | start codes, length prefixes | round trip with an independent splitter |
| C25 decoder config | `createExtradata` (AVC, HEVC) | independent record decoder; profile bytes refuted |
| C26 ADTS | bit extraction | round trip with an independent encoder; channel field refuted |
| C27 manifest window | timestamp deque of an adaptation set | equals "last n of the history" |
| C28 mixer amplitude | `mixSample` over IEEE single precision floats with exact rounding (F32) | integer arithmetic on the roundings |
| C29 mixer placement | ring positions in integers | invariant; stale samples after resync refuted |
| C30 video mixer | layer loop and rectangle arithmetic | induction over layers |
| C31 splitter | crop arithmetic | arithmetic |
| C32 UltraGrid fragments | fragmenter loop | reassembly by induction; overflow refuted |
| C33 payload headers | bit fields | arithmetic, refuted outside the field width |
| C34 shared memory | two-process flag protocol, header bytes | invariant over interleavings |
| C35 SPS | bit reader, Exp-Golomb, emulation prevention | round trips and safety |
| C36 extradata split | `parseExtradata`, `feedHeaders` | round trip; truncation refuted |
| C37 demuxer split | `findStartCode` loop | round trip; missed start code refuted |
| C38 frame sync | `framesSync` in integers | invariant over histories |
| C39 encoder timing records | map of timing records with an arbitrary reordering oracle | invariant |
| C40 file names | string concatenation | injectivity |
| C41 sink manager | connection map | invariant |
| C42 truncation accounting | size arithmetic | arithmetic |
| C43 fill level under concurrency | `elements` as separate load and store of two threads | refuted by a schedule; exact version for one thread at a time |
| C44 commands of a message | event decoding and dispatch of `PipelineManager::processEvent` over the JSON model | refinement to a list of commands |
| C45 delivery to network sources | `QueueSource`/`H264or5QueueSource` handshake | invariant over all interleavings of arrivals, deliveries and rounds |
| C46 UltraGrid pictures | `H264VideoStreamSampler` | refinement to splitting at delimiters |
| C47 intra grid | `doProcessFrame`'s reference time, arbitrary codec answers | invariant `ref - gop <= t < ref`, closed form |
| C48 encoder settings | `configure0`, `configEvent` with the unsigned conversions | case analysis over reachable states |
| C49 delivery of received frames | `QueueSink` handshake, receiver rounds, sequence numbers | invariant over all interleavings; refuted for the first frame |
| C50 receiving ports survive | sinks, writers and queues with their lifetimes | safety invariant; refuted by universal witnesses |
| C51 session description | text built by `makeSessionSDP`, `makeSubsessionSDP` | an independent SDP reader gets every field back |
| C52 renaming | `modifySessionName` on lines | refinement to replacing one line |
| C53 register of sessions | session map and sink map, RTSP answers as operations | invariant over histories; removal as an equivalence |
| C54 keep-alive | delays in 32-bit arithmetic | schedule theorem over all moments |
| C55 statistics | counters modulo 2^32, gauges | refinement to minima and maxima of a true history |
| C56 pace of measurements | 32-bit clock difference | induction over the run of the timer |
| C57 resampling | cached conversion context, requested settings, slot size | invariant over histories; refinement to the settings last asked for |
| C58 video decoding | decoder context with libav's answers as oracle | invariant over histories; termination by bytes left; refutations for any state with an open decoder |
| C59 audio decoding | decoder and converter contexts with the library's answers as oracle, the frame written to | invariants over histories; termination by bytes left; the first conversion is an invariant of every history, which refutes reconfiguration |
| C60 audio encoding | requests, connections and frames with the library's answers as oracle; the converter as a queue | exact condition for a request; invariant over histories; refutations by counting samples |
| C61 parameter sets of a description | the filter as a state machine over requests and connections; memory of 128 bytes | induction over histories; exact condition for the overrun; composition with the transmitter's parser (C36) |
| C62 frame numbers | a filter's writers with counters; the work is an oracle; rounds, connections, disconnections | invariant over histories, per writer; exact characterisation of the filters woken |
| C63 path statistics | the counters of a reader over the released frames | refinement to a cut of the history into windows; bounds and age by induction |
| C64 camera resources | the state machine of the camera, every system call an oracle, a log of what was asked and got | invariant over histories linking the state to the log; exact condition of success |
| C65 camera frames | rounds with clock readings, the driver's queue of buffers, the bytes copied, the running average | per-round theorems; invariants of the average over the times handed on; convergence by a decreasing distance |
| C66 transmission rounds | all sources of a transmitter, pending event triggers, what sinks do and which trigger is handled given from outside | each input's events are a run of the single-source model of C45; number of frames held as the loop invariant; progress by the pending triggers |
| C67 names of RTSP streams | the server's table of names, session objects with their clients and life, the transmitter's connections; live555's server by its contract; use of a destroyed session is a distinct outcome | invariant over all histories without a name asked for twice; what a name in use leads to for every state so reached |
| C68 (of C04) | interleaving semantics of the queue's loads and stores | the theorems of C04 that carry no restriction |
| C69 (of C03) | refinement to a bounded list whose forced requests drop the last element | the theorems of C03 that carry no restriction |
| C70 (of C14) | composition of parser, event and pipeline models; invariant over all sessions | the theorems of C14 that carry no restriction |
| C71 (of C13) | runs of the event queue; permutation invariant | the theorems of C13 that carry no restriction |
| C72 (of C12) | interleaving semantics of the pool | the theorems of C12 that carry no restriction |
| C73 (of C16) | heap of queues, filters and paths with misuse as distinct outcomes; invariant over all histories | the theorems of C16 that carry no restriction |
| C74 (of C19) | byte-level model of tokenizer, parser and request loop | the theorems of C19 that carry no restriction |
| C75 (of C20) | the conversion tables as functions on strings | the theorems of C20 that carry no restriction |
| C76 (of C21) | byte-level writer, independent box parser, round trip | the theorems of C21 that carry no restriction |
| C77 (of C23) | byte-level writer and independent demultiplexer | the theorems of C23 that carry no restriction |
| C78 (of C28) | IEEE binary32 modelled in integer arithmetic; invariant over all histories | the theorems of C28 that carry no restriction |
| C79 (of C30) | pixel-level model with OpenCV as oracle | the theorems of C30 that carry no restriction |
| C80 (of C35) | byte-level reader, independent bit writer | the theorems of C35 that carry no restriction |
| C81 (of C45) | event automaton of a source | the theorems of C45 that carry no restriction |
| C82 (of C38) | state machine of a filter's rounds; invariants over all histories | the theorems of C38 that carry no restriction |
| C83 (of C66) | all sources of a transmitter and the pending triggers | the theorems of C66 that carry no restriction |
| C84 (of C53) | register of sessions and sinks; invariant over all histories | the theorems of C53 that carry no restriction |
| C85 (of C37) | byte-level splitter and independent grammar of Annex B | the theorems of C37 that carry no restriction |
| C86 fractions in messages | `Value::Set(float)` and `ToFloat` with the C++ library's text conversions written out (six digits, nearest even), floats as in F32 | error bound of both roundings for all values, exactness for six digit decimals, nearest for all texts; equality refuted |
| C87 events of filters | every event handler as a function from JSON parameters to an order for the filter's model, an exception ends the program; the API calls as the events they send | a relation `asks` read off the names, proved equivalent for parameters of the right kinds; orders, refusals and ends for all others |
| C88 manifest text | MpdManager with all its attributes, the document it makes and tinyxml2's printing of it (library contract) | an independent XML and MPD reader applied to the printed text gives what folds over the history of calls give; induction over documents and histories |
| C89 state reports | doGetState of the mixers, splitter, resampler, coders, dasher, demuxer, shared memory and transmitter; getState's object; events as in C87, carried out by the filters' models | an independent relation "the object tells the state"; invariants of the states reached; event then report, report then event, report through JSON text |
| C90 announcements | the sinks the RTSP subsessions make, their estimated bit rates, AAC's format line; the library's text of a session as a contract; createStreamInfo | the text read with the independent reader of SdpSpec.v and the RFC 3551 table, for sessions of any streams, then through createStreamInfo: faithful iff listed |
| C91 RTP set-up | firstStepSetup, additionalSetup (standard RTP), finalRTCPSetup and the destructor as a log of acts, against any host | induction over the search; sockets open after the log |
| C92 opening | setURI, reset, allocQueue over any history; libav's streams as input; StreamInfos known by the opening they were made in | invariant over histories; simulation of careful histories by a specification; C37 for the frames of split streams |
| C93 capture times of sound | orgTime and the capture time of the output frame, on top of the audio buffer of C07/C08 | the time line of C08 as simulation; invariant: the last frame taken lies within the tolerance of its place on the line |
| C94 granted paths connect, and stay connected | nothing new: the network of C14 to C17 (Net, Pipe); `told` and `line` in WireSpec | two invariants of every history: a connected queue lists its two ends, and every input that holds its reader is listed; connections tracked through every deletion |
| C95 what the receiver reports of its sessions | doGetState, the constructor of the statistics and a measurement without data (Rrp) over the measurements of C55 (Stat); what happened is a history of truths (RrpSpec) | weighted means: the bytes since the start lie between least and greatest rate times the elapsed time, by induction on the history; same for lost packets; refuted for late streams, mean gaps, empty streams, duplicates |
| C96 sessions of RTSP servers are set up stream by stream | the handlers of the answers, the timers and the removal of a session, several sessions sharing the register of ports (Stu); the conversation is specified as a transcript (StuSpec) | transcript invariant by induction on the history; invariant tying the register to what was granted while no ports are shared; refuted for shared ports, long sessions, sessions kept alive after their end, and PLAY with nothing granted |
| C97 the control port keeps serving | the main loop and the control socket with clients that may do anything, on top of the byte-level model of a message (Csk on Ctl) | induction on the sequence of clients; the exact condition under which a client is turned away; refuted for unreadable messages, silent clients, messages in pieces and clients that go early |
| C98 one controller, one pipeline | the two static pointers and the objects made and deleted (Csk) | invariant by induction on the history while the controller is not destroyed; refuted after that |
| C99 threads do not block each other for ever | every function as the locks it takes and releases, any number of threads interleaved at will (Lck) | a locking discipline kept by every function, as an invariant of all histories; from it, somebody can always go on, and a measure that every step decreases; refuted for connecting a filter to itself and for connecting an encoder again to the dasher that reads from it |
| C100 the report tells of the receivers there are | the register of RTCP instances under their numbers, any history of receivers (Rcp) | the exact condition for being told of, by induction on the history; refuted for equal numbers |
| C101 every transmitter has a port of its own | the search for the RTSP port, with transmitters and other programs holding ports (Rcp) | invariant by induction on the history |
| C102 the announcement of an AAC stream tells how to decode it | the parser's text of the configuration with its memory, the request that waits for it, the line kept (Aac) | induction on the frames and the requests; hexadecimal read back by an independent reader; refuted before the first frame and for the size of the array |
| C103 stopping the pool ends, and nothing runs afterwards | the workers' loop, stop() and callers of addTask/removeTask as threads that interleave (Stp) | lock invariant, a weight that every step after the call decreases, no stuck state but the final one; the missed notification is refuted |
| C104 the demuxer looks after the memory of its packets | rounds, reset and setURI over named blocks, with the library's answers left open (Dmm) | invariant over histories: three shapes of the state; a packet without data on a split stream is refuted |
| C105 every shared memory filter has a segment of its own | constructor, createNew and destructor over a table of segments with the contract of shmget, shmat, shmctl and shmdt; other processes as further steps (Sgm) | invariant over histories; the segment left when attaching fails, keys equal modulo 2^32 and key 0 are refuted |
| C106 the shared memory filter passes the video on | allocQueue, specificReaderConfig, copyOrgToDstFrame and the queues' setup, over the descriptions of streams that there are (Sho) | induction over histories; safety if the input is connected first; output first, origin destroyed, another stream, audio are refuted |
| C107 an output of the receiver is made for the stream that arrives there | allocQueue with the register of sessions, the sinks and what is remembered for each port (Rqd, on createStreamInfo of Ann) | invariant over histories; used ports, streams of unknown codec and two sessions on a port are refuted |
| C108 the configuration data a decoder was opened with stay | setExtraData, its callers and inputConfig over blocks of memory that are allocated and freed (Exd) | invariant over histories; new headers, a freed description and the room after the data are refuted for every history |


## Trusted base

* The Coq 8.16.1 kernel, including its `vm_compute` evaluator, used for literal witnesses only.
  `coqchk` re-checks every file.
* `Print Assumptions` is run at the end of every `XProps.v` for every property theorem. Every one answers
  "Closed under the global context": no axiom of the standard library or of any other library is used, and none is
  added here. (Loading the standard library's `ssr` files makes `coqchk` list `Coq.ssr.ssrunder.*`; no theorem depends
  on them.)
* The hand-written correspondence between each definition of an `XModel.v` and the lines of `/repo` its comment cites.
* Contracts of libraries, always as explicit hypotheses or oracle arguments of the theorems and never as axioms:
  libav, x264, x265, live555, OpenCV, the operating system's clock, sockets, files and shared memory.
* Memory is sequentially consistent where threads or processes interleave (Spsc, Life, AudioRace, Pool, Shm).
  Interleaving is modelled at the granularity of single loads and stores where the code takes no lock, and of critical
  sections where it does. The theorems say nothing about reorderings a compiler or processor may add to unlocked accesses.
* Floating point: `F32.v` defines IEEE single precision rounding to nearest for the operations used; contraction
  (fused multiply-add) is excluded.

## What is modelled, by source file

| Source | Model | Not modelled there |
|---|---|---|
| `AVFramedQueue.cpp`, `FrameQueue.hh` | Ring, Spsc | allocation failure |
| `IOInterface.cpp` | Reader, Life, Net | delay statistics |
| `AudioCircularBuffer.cpp` | AudioBuf, AudioRace, Aor (capture times) | `forcePushBack` (not called) |
| `SlicedVideoFrameQueue.cpp`, `VideoFrame.cpp` (slices) | Sliced, Enc | |
| `WorkersPool.cpp`, `Runnable.cpp` (identifiers, time) | Pool, Lck (locks), Stp (stopping) | thread creation |
| `Event.cpp`, `Filter.cpp` 422-466 | Event | |
| `Filter.cpp` connections | Net, Pipe, Sink, Lck (locks) | |
| `Filter.cpp` rounds (`framesSync`, demand, remove) | Sync | frames handed again when nothing is new |
| `PipelineManager.cpp`, `Path.cpp` | Pipe, Ctl, Csk (the instances), Lck (locks) | |
| `Controller.cpp`, `Jzon.cpp` | Json, Ctl, Csk (control socket, main loop), Ftx (floating point text), Evt (events of filters, all modules but V4LCapture), Rep (state reports, all filters but the receiver, which is Rrp's, and V4LCapture, V4l's) | FileReader, infinities and NaNs |
| `Utils.cpp` conversions | Names | logging |
| `dasher/i2libisoff.c` | Iso | |
| `dasher/i2libdash.c`, `Dasher.cpp` (segmenters) | Dash | NULL contexts |
| `dasher/DashVideoSegmenter*.cpp`, `DashAudioSegmenter.cpp`, `transmitter/ADTSStreamParser.cpp` | Nal | |
| `dasher/MpdManager.cpp`, `Dasher.cpp` (files) | Mpd, Mxm (text of the manifest) | disk failures |
| `audioMixer` | Mix | |
| `videoMixer`, `videoSplitter` | Vid | pixels of `resize` and `addWeighted` |
| `transmitter/*Source*.cpp`, samplers, RTP sinks | Tx | live555 internals |
| `transmitter/SinkManager.cpp`, `Connection.cpp` | Sink, Rnd (rounds), Rts (names), Ann (subsession sinks, RTP set-up), Rcp (receivers, RTSP port) | UltraGrid and MPEG-TS sinks of plain RTP; what live555 does inside SingleStep is an oracle; its RTSP server is a contract |
| `transmitter/*ServerMediaSubsession.cpp`, `CustomMPEG4GenericRTPSink.cpp` | Ann (createNewRTPSink, bit rates, format line), Aac (AAC's configuration) | |
| `transmitter/SPSparser` | Sps | slice headers, PPS, SEI |
| `sharedMemory` | Shm, Sgm (making and removing segments), Sho (the output) | the random key of createNew, permissions |
| `headDemuxer` | Dmx, Opn, Dmm (memory) | libav itself |
| `videoEncoder` | Enc | pixels |
| `receiver/QueueSink.cpp`, `SourceManager.cpp`, `Handlers.cpp` | Rcv, Sdp, Sess, Stat, Rrp (state report), Stu (RTSP conversation) | what live555 does beneath the handlers |
| `videoResampler` | Rsm | pixels |
| `videoDecoder` | Vdc | pixels, codec flags, extra data |
| `audioDecoder`, `AudioFrame.cpp` (sizes) | Adc | sample values, samples the converter keeps back |
| `audioEncoder`, `AVFramedQueue.cpp` (audio frames) | Aen | sample values, the codec's delay, options of the encoder |
| `receiver/H264VideoSdpParser.cpp`, `SourceManager.cpp` (stream info) | Hsp | base64 decoding (live555) |
| `Filter.cpp` (rounds, numbering, jobs) | Seq | the work itself (other rows), queues that refuse a frame |
| `IOInterface.cpp` (statistics), `PipelineManager.cpp` (path state) | Dly | overflow of 64-bit sums |
| `V4LCapture.cpp` | V4l, V4f | cropping, what close answers, nanoseconds |
| `transmitter/Connection.cpp` 717-802 | Stat | rounding of doubles |

Not modelled at all: the tests and examples.

## Findings

Each is a theorem whose name ends in `_refuted` (or an exact theorem that states the deviation), about the model of the
code as it is.

* Queue (C01-C05, C09): a 10-slot raw video queue never reports full (strict comparison); a two-slot forced write overwrites
  the frame in the reader's hands; a one-slot forced write never returns; a zero-slot queue divides by zero; a concurrent
  forced writer hands the reader unpublished frames; two disconnects at the same time leak the queue; a disconnect during the other side's
  frame is a use after free; an over-long slice overflows its slot.
* Reader (C06): a filter leaving a shared reader in the middle of a round stalls the others for good.
* Audio buffer (C07, C08, C43): a gap between 100 ms and the limit reads past the silence buffer; a refused frame leaves its silence behind;
  below 1000 Hz the buffer has length zero; `elements` is updated by two threads without a lock.
* Pool (C10-C12): `pop` removes the front job, not the picked one; a stale entry runs a removed filter or swallows
  the wake-up of a new one; a filter that is not ready blocks those behind it.
* Events (C13): equal times are not first-come first-served; the truncation of a delay runs an event early.
* Pipeline (C14-C17): `removePath` deletes filters shared with other paths; a failed `createPath` stays registered; stopping with
  two paths uses freed memory; `shareReader` ignores the number of inputs; connecting a filter to itself blocks.
* JSON and control (C18-C20, C44): strings ending in a backslash and doubles from 1e6 do not round trip; a quotation mark inside a comment hides the rest of the message; leftovers of a refused
  message poison later ones; some messages terminate the program or are never answered; most pixel format names do not convert back.
* ISO and DASH (C21-C27, C40): sample rate and descriptor fields wrong; presentation time used as decode base, so composition offsets
  count twice; arrays overrun; segments may be closed a frame early or overwritten when another representation lags;
  the first segment is never deleted; AVC profile bytes shifted by one; ADTS channel field lacks a shift.
* Audio mixer (C28, C29): buffers not cleared at resynchronisation; frames before the origin move time back; order-dependent mixing.
* Video mixer and splitter (C30, C31): a layer equal to the number of channels is never drawn; tiny channels throw; announced
  length too small by a factor of three; overflow in the crop check.
* Transmitter (C32, C33, C36, C41, C42, C45, C46): a frame may be delivered twice; parsing of extradata reads past its end and
  truncates sizes to 8 bits; the first UltraGrid packet ignores the packet size; deleting readers without connections fails.
* Shared memory (C34): the header belongs to the next picture; nothing checks the size of the segment.
* SPS (C35): scaling lists are not read; several profiles missing; crop units only right for 4:2:0 frames; hostile input overruns arrays.
* Demuxer (C37): a unit starting in the last seven bytes is glued to the previous one; a packet without start code reads out of bounds;
  a packet without pts is stamped with raw ticks.
* Synchronisation (C38): with three inputs, or a full one, frames further apart than the margin are combined; a frame at time -1 stalls.
* Encoders (C39, C47, C48): decode time zero for the first pictures of a codec with delay and after reopening; timing records leak at every reopening;
  a picture of more than sixteen units stops delivery for good; a failed opening is not retried; intra bursts after a gap;
  an intra request is lost when the codec fails; negative settings accepted; an unrelated request turns pacing on again.
* Receiver (C49-C56): the first frame after connecting has no bytes and possibly a length beyond its buffer; a disconnect while
  data are awaited silences the port for good; removing a connected session, or one whose stream ended, uses missing or
  freed objects; removing a session made from a description always does; a refused description stays registered and blocks
  its name; names and negative numbers are put into descriptions unchecked; MP3 loses rate and channels; descriptions with bare
  line feeds are run together; keep-alive delays wrap beyond 4299 seconds; initial bounds are reported as extremes;
  the sender's loss percentage is a share of 256.
* Resampler (C57): pictures larger than 1920x1080x3 bytes (full HD in RGB32, say) are written beyond their buffer; the format is
  uninitialised until asked for; YUVJ420P cannot be asked for; asking for no format is refused but takes effect; conversion
  contexts leak at every change.
* Video decoder (C58): the second frame of an unsupported codec crashes a new decoder and goes to the previous codec's decoder in one
  that was used; a codec libav lacks leaves a freed context that is used, and freed, again; a call that takes no byte and gives no
  picture loops for ever; only the first picture of a frame is kept; with a codec that delays, times are those of later frames;
  pictures above 6220800 bytes overflow.
* Audio decoder (C59): the converter is initialised once, so a later change of codec, rate, channels or requested settings is
  answered with success and does not take effect; a packet without samples hands on the previous samples again under new stamps; a
  decoder that failed to open is never reopened for frames of the same kind; unsupported and missing codecs and call lengths of 0
  as for video; samples of a format outside the six known ones crash a new decoder; wider samples asked for between connection and
  the first frame, or more than two channels, overrun the frame; a negative rate frees the converter and the next samples crash.
* Audio encoder (C60): the first request naming a codec is final even if it fails; PCM and mu-law can never be configured (the frame
  size 0 is replaced by one computed from the input's rate before there is an input); encoders that list no rates or layouts are
  refused; an encoder for MP3 gets a queue of NULL frames and looks for one to write to for ever; when the rate is lowered the end of the
  previous frame is encoded again, when it is raised the delay grows without bound; the conversion never changes once set up; at rates
  below 10240 Hz the 1024 samples AAC asks for overrun the frame of the input buffer.
* Parameter sets of a description (C61): they are copied to 128 bytes without a check, so a description with more makes the receiver
  write outside its memory; each of them answers one request for a frame with an untouched buffer and a size nobody has set; a reader
  connected before they have all been asked for gets incomplete configuration data, for ever; a buffer of less than 4 bytes is overrun.
* Frame numbers (C62): no defect with the work of the filters in the repository; a source that marked a frame and then reported failure
  would hand on a frame with a stale number, and a serving filter with one destination would use it before it is connected.
* Path statistics (C63): the first frame and frames with the time of the frame before are not counted; times that go back freeze the
  report; the sum of delays is divided as an unsigned number, so two or more negative delays are reported as a huge one; delays from
  2^31 microseconds on are reported as negative.
* Camera (C64): a capturing camera cannot be configured anew (the call passes the flag fFormat as the rate, so it is asked for one frame per
  second in YUYV, or for 0, a crash if granted); if stopping or unmapping fails the answer is success, and after a failed unmapping the
  next request captures into unmapped buffers; buffers mapped before a failed mapping leak; the device is never named in the state; the
  numerator of a granted rate is ignored; rates above 10^6 (or negative) crash the state; the codec is not reset to RAW; MJPEG is captured
  but cannot be connected.
* Camera frames (C65): YUV420 loses its colour and coded pictures are not copied at all, the length of a frame is never set; pictures
  larger than 1920 x 1080 overrun the frame; buffers the driver refuses are lost; the counters survive a release, so a pause becomes part of
  the average (an hour's pause makes frames come every 28 seconds).
* Transmission rounds (C66): a round waits for every playing input, so one whose sink neither waits with a trigger nor asks holds up all
  inputs for ever; live555 has 32 event triggers and none is ever given back, so the 33rd input ever connected has none, and its sink's
  waiting stops the transmitter; a trigger left pending when its input is disconnected makes the next step use the destroyed source.
* Names of RTSP streams (C67): a request for a name in use is granted. The stream that had the name stays registered but is not found;
  removing it uses a destroyed session, and so do asking for the state and removing any input if it had no clients; if it had, the new
  stream is not found once they have left. A request for a name in use that is refused for its readers makes the stream unreachable.
* Fractions (C86): values given to API calls are rounded to six digits on their way (a channel one third of 1920 pixels wide becomes
  639 pixels wide); values below 0.000099 and from a million on are written with an exponent, which the program's own parser refuses.
* Events (C87): an event whose "params" is not an object, or with a parameter of a wrong kind where the handler does not look at the
  kind, ends the program (nothing catches the exception); a "configure" event for the splitter without "fTime" resets its frame time;
  one for the video mixer with only a width or only a height leaves the size; texts with backslashes given to calls change on the way.
* Manifest text (C88): the frame rate in the manifest is always 0; the greatest width and height never fall; a set whose last stream
  went stays, empty; with audio streams of different rates the times are in units of the first and the scale is that of the last; a
  base name with a control character is read as another name. The start of availability is in UTC but has no zone (the text of the
  date is a parameter of the model).
* State reports (C89): the statistics of all streams of one connection are collected in one object that is never emptied, so the
  second stream's object has every member twice and a reader finds the first stream's values; the splitter tells "frameTime" but
  reads "fTime", so its own report sent back sets the time to 0; the dasher tells "maxSegments" and "minBufferTime" but reads
  "maxSeg" and "minBuffTime", so a changed report changes nothing; the frame rate of the mixer, the bit rate of the audio encoder and
  the resampler's settings are not told; a gain below a ten-thousandth makes an answer that is not JSON for the program's own reader.
* Announcements (C90): 16 bit PCM is announced as "L16", MP3 as "MPA", MPEG-TS as "MP2T" and G.711 other than 8 kHz mono as "g711";
  the program's own receiver knows none of these names and drops the stream.  mu-law at 8 kHz mono comes back as G.711, and PCM and
  mu-law come back without a sample format, so no queue can be made for them and they cannot be connected.  "pcm" and "g711" are no registered payload names.  The bandwidth announced for
  uncompressed audio is computed in bytes and announced as bits: an eighth of the stream's.  Not covered: which payload names the
  RTSP library itself accepts.
* RTP set-up (C91): a port outside 0..65535 is taken modulo 65536, a text that is no address becomes 255.255.255.255, the search for
  free ports has no end (after 65534 it asks for port 0 and 1 and goes round), and neither the sink nor the source of a refused or
  removed connection is closed.
* Opening (C92): opening another source while a stream is connected deletes the stream information its queue points to; the next
  filter to ask for it reads freed memory.  Connecting a number that is not listed dereferences a null pointer, and connecting raw
  video reads a pixel format nobody set.  A-law and mu-law of any rate are told as one codec, mono at 8 kHz; unsigned PCM is told as
  mu-law; 24 and 32 bit PCM is listed but cannot be connected.  H.265, and H.264 with at most four bytes of parameters, is said to
  come one NAL unit per frame but is passed on in whole packets.  A second MP4 style H.264 stream leaks the first one's filter.
* Capture times of sound (C93): they are taken from the last frame put in, so a frame handed out is said to be captured too early by
  the difference of the two frame sizes; silence left by a refused frame moves them back by its length.
- Receiver's report: a session whose RTSP server has not answered is not told. A stream of which nothing has
  come at the first measurement is told a mean bit rate below its least one; data that had come before watching
  puts the mean above the greatest. The mean gap divides the sum of the gaps by the packets, not by the gaps, so
  a steady stream is told a mean gap below its least gap. A stream of which nothing was expected is told 100 %
  loss, and packets that come twice a negative least loss. `totalGaps` is read before it is set when a stream
  that has no packets is reported (the sum is not used then, as it is divided only if packets came).
- RTSP sessions: PLAY is asked for even if the server agreed to no stream. A stream at a port another session
  uses is de-initiated but its sink is kept, so that the next shutdown closes a sink whose source is gone; and
  removing a session erases the sinks of another session that has the same ports. A session of 4293 seconds or more makes
  the delay of its timer overflow `unsigned` (undefined). After a session ended by its timer the keep-alive
  alarm uses the closed client. Removing a session whose description has not come dereferences NULL, and one
  that has ended uses its freed client.
- The control port: the connection of a message that cannot be read is never closed, so that after as many such
  messages as there are descriptors no client is let in again. Reading blocks: a client that connects and is silent
  stops the service. Only what one read gives is taken for the message. Writing the answer to a client
  that has gone raises SIGPIPE, which nothing in this code handles.
- `Controller::destroyInstance` sets a variable of its own to NULL, not the static pointer: the next
  `getInstance` gives the destroyed controller, and destroying again deletes it twice. The controller keeps its pointer to
  a pipeline that was destroyed.
- A path from a filter to itself is created without complaint, and connecting it makes the control thread take the
  filter's lock twice: it never answers again. An event that the dasher sends to an encoder takes the locks in the opposite order
  to a connection from the encoder to the dasher: asking for a second such connection, which is going to be refused, can block both threads for ever.
- Receivers are registered under numbers drawn by rand(), without a look at those in use: of two with the same number only the second
  is reported, and when either goes the other is no longer reported.
- The configuration announced for AAC is printed into an array of two characters although it takes five; before the first frame
  the array is not initialised, the request does not wait because its address is never NULL, and what it then announces stays for ever.
- stop() of the pool sets the flag and notifies without the lock: a worker that has just found the pool running goes to wait
  afterwards, so that stop() lasts until the end of that wait (up to the time of the first filter in the queue).
- A packet without data on a stream that is split and already in Annex B makes the demuxer read at NULL
  (HeadDemuxerLibav.cpp 176-189: no start code is found, and buffer[1] is looked at).
- Shared memory: a filter whose new segment cannot be attached is dropped without removing the segment, so that its key is
  refused from then on. Keys are compared by 32 bits, and key 0 is never in use. Line 66 compares 32 bits with 64, so that a failure
  of shmget is never noticed there; it is noticed at line 74, because no segment has the identifier -1.
- Shared memory: connecting the output of a filter before its input, or after the filter before it was destroyed, reads a description
  that is not there (SharedMemory.cpp 157, AVFramedQueue.cpp 146). A filter whose input is connected to another stream keeps the
  queue made for the first: larger frames are written past the end of its buffers (184), and frames of another codec are passed on as
  if they had the first. The queue of an audio stream is accepted (434-443) and its frames are used as video (116, 174).
- Receiver: what a port's stream is, is remembered the first time its output is connected and never forgotten (SourceManager.cpp 236,
  262-272). A later session that gets the same port has its sound put into a queue for video, or is refused for ever because the
  first stream was of an unknown codec. With two sessions on a port, the output is made for the one whose name comes first.
- Video decoder: it shares the block of configuration data with the description of the stream (VideoDecoderLibav.cpp 166). An encoder that is
  configured again frees the block (StreamInfo.hh 69), opening another file frees the description too (HeadDemuxerLibav.cpp 79); the decoder's
  context points at freed memory. The block has no room after the data, which the library asks for. The encoders never free their description. A sender reads the
  data through the description, so it sees new ones, but uses the description after it is freed (H264or5QueueSource.cpp 62, 88).

## Testing against wrong programs

`seeded/LOG.jsonl` records, for each edit of the model that a realistic bug would make, the claim it breaks and the
theorems or lemmas that no longer prove. Where an edit went unnoticed the theorem was tightened; the entry names it.
