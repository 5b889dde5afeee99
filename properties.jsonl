{"id": "C01", "title": "A frame queue is a bounded FIFO", "statement": "A reader connected to a frame queue of capacity N obtains exactly the frames the writer committed, each once, in commit order, as long as the writer only commits slots the queue offered it without forcing. At most N-1 frames are ever pending, the reported number of pending elements is exact, and the reader is told 'nothing to read' exactly when every committed frame has been removed and the writer is told 'no slot' exactly when N-1 frames are pending.", "quantifier": "every capacity N from 1 to 250 and every finite history of slot requests, commits, peeks and removals in any order", "why_tests_cant": "The ring indices wrap and the empty/full conditions differ by one slot; a test samples a handful of fill levels and wrap positions, the claim is about all of them after any history.", "anchors": ["src/AVFramedQueue.cpp:getRear,getFront,addFrame,removeFrame,getElements", "src/FrameQueue.hh:FrameQueue"]}
{"id": "C02", "title": "A writer is never handed a buffer that still holds unread data", "statement": "The buffer a queue offers to its writer is never one that contains a committed and not yet removed frame, and for capacities of two or more it is never the buffer the reader would re-read when it asks for the last frame again unless that frame is the only free one.", "quantifier": "every capacity and every history of operations on the queue", "why_tests_cant": "Aliasing between writer and reader slots only shows for particular wrap positions; corruption is silent.", "anchors": ["src/AVFramedQueue.cpp:getRear,getFront,forceGetFront"]}
{"id": "C03", "title": "Forced writes always succeed and lose only the newest frame", "statement": "When a writer forces a slot out of a full queue it always obtains one, at most the single most recently committed frame is discarded, all older pending frames stay in place and in order, and the loss counter grows by exactly the number of frames discarded.", "quantifier": "every capacity and every queue content reachable by any history of operations including earlier forced writes", "why_tests_cant": "The discard loop has no static bound and its effect depends on the ring state; a test cannot show it terminates for every state.", "anchors": ["src/AVFramedQueue.cpp:forceGetRear,doFlush", "src/FrameQueue.hh:flush"]}
{"id": "C04", "title": "A writer thread and a reader thread can use one queue concurrently", "statement": "With one writer thread and one reader thread running at the same time without locks, the reader obtains the committed frames in order, never a frame that was not committed, never a frame twice and never a half written frame.", "quantifier": "every interleaving of the individual loads and stores of the two threads, for every capacity and any number of operations", "why_tests_cant": "Interleavings are chosen by the hardware scheduler; stress tests cover a negligible fraction of them.", "anchors": ["src/AVFramedQueue.cpp:getRear,addFrame,getFront,removeFrame,forceGetRear", "src/IOInterface.cpp:Reader,Writer"]}
{"id": "C05", "title": "A disconnected queue is freed once and never used afterwards", "statement": "When the writing filter and the reading filter disconnect from their common queue, in either order and from different threads, the queue is destroyed exactly once, and neither side touches it after it was destroyed.", "quantifier": "every interleaving of the disconnections of both ends, including interleavings in the middle of either operation, with any number of earlier frame operations", "why_tests_cant": "Needs a precise schedule in a window of a few instructions; sanitizers only see schedules that happen.", "anchors": ["src/IOInterface.cpp:Reader::disconnect,Reader::disconnectQueue,Writer::disconnect", "src/FrameQueue.hh:setConnected,isConnected"]}
{"id": "C06", "title": "Filters sharing one reader each see every frame once", "statement": "When several filters share one reader, every filter gets every frame flagged as new exactly once, all of them get the same frame in a round, and the frame leaves the queue only after the last of them has released it.", "quantifier": "every number of sharing filters and every interleaving of their get/release operations and of frame arrivals", "why_tests_cant": "The protocol state is the cross product of per-filter flags, so the order in which filters run matters; tests use two filters in one order.", "anchors": ["src/IOInterface.cpp:Reader::getFrame,Reader::removeFrame,Reader::addReader,Reader::disconnect"]}
{"id": "C07", "title": "The audio buffer re-frames samples without loss, duplication or reordering", "statement": "Per channel, the concatenation of the sample data delivered by an audio circular buffer is a prefix of the concatenation of the sample data it accepted, whatever the sizes of the input frames and of the output frames; data is refused only when it does not fit, and a refused frame changes nothing.", "quantifier": "every channel count, sample format, sample rate, buffer length and every history of input frames of any size and output requests", "why_tests_cant": "Off-by-one errors at the wrap point depend on the exact combination of sizes and positions.", "anchors": ["src/AudioCircularBuffer.cpp:pushBack,popFront,fillOutputBuffers,addFrame,getFront,removeFrame"]}
{"id": "C08", "title": "The audio buffer keeps sound aligned with its timestamps", "statement": "An incoming audio frame whose timestamp deviates from the buffer's write position by at most the tolerance is appended as is; one that is late by more is discarded; one that is early by more is preceded by exactly the silence that corresponds to the gap; and each delivered frame carries the timestamp of its first sample counted from the synchronisation point.", "quantifier": "every sequence of frames with arbitrary timestamps and sizes", "why_tests_cant": "Timestamp jitter combines with buffer occupancy and integer rounding in unboundedly many ways.", "anchors": ["src/AudioCircularBuffer.cpp:addFrame,getFront,forcePushBack,setup"]}
{"id": "C09", "title": "The sliced video queue delivers every slice in order", "statement": "Committing an input picture that consists of several slices makes each slice available as its own frame, with its bytes, timestamps and sequence number intact and in slice order; when space runs out the discarded slices are counted as lost and the frames committed earlier are kept.", "quantifier": "every number and size of slices per picture, every capacity and every history", "why_tests_cant": "Depends on slice counts, sizes and ring position together.", "anchors": ["src/SlicedVideoFrameQueue.cpp:addFrame,pushBackSliceGroup,innerAddFrame,innerForceGetRear", "src/VideoFrame.cpp:SlicedVideoFrame::setSlice"]}
{"id": "C10", "title": "A filter is never executed by two workers at the same time", "statement": "However many worker threads the pool has and however often a filter is woken up, at any moment at most one worker is executing a given filter.", "quantifier": "every number of workers and filters and every interleaving of worker steps, wake-ups, additions and removals", "why_tests_cant": "A scheduling property: violating schedules are rare and timing dependent.", "anchors": ["src/WorkersPool.cpp:WorkersPool,TaskQueue", "src/Runnable.cpp"]}
{"id": "C11", "title": "Every wake-up of a registered filter is eventually served", "statement": "When a filter is scheduled with the worker pool and it is not removed, the pool does not forget the request: until the filter runs, it stays in the pool's schedule.", "quantifier": "every number of workers and filters and every interleaving", "why_tests_cant": "Lost wake-ups depend on the queue contents at the instant a worker picks a job.", "anchors": ["src/WorkersPool.cpp:TaskQueue::pop,TaskQueue::addJob,WorkersPool::addTask"]}
{"id": "C12", "title": "A removed filter is never executed again", "statement": "After the pool has accepted the removal of a filter, no worker starts that filter again.", "quantifier": "every interleaving of worker steps with additions and removals", "why_tests_cant": "The stale entry is only used if a worker picks it after the removal returned.", "anchors": ["src/WorkersPool.cpp:removeTask"]}
{"id": "C13", "title": "Filter commands run in time order and not before their time", "statement": "The commands queued on a filter are executed in the order of their timestamps, each at most once, none before its requested delay has elapsed, and a command that has to wait does not let a later one overtake it.", "quantifier": "every set of queued commands with arbitrary timestamps and delays, every arrival order and every sequence of clock readings", "why_tests_cant": "The order is decided by a heap and the wall clock; tests cannot enumerate arrival orders.", "anchors": ["src/Event.cpp:operator<,canBeExecuted", "src/Filter.cpp:pushEvent,processEvent"]}
{"id": "C14", "title": "Pipeline identifiers stay unique and dangling references are refused", "statement": "Filters and paths created through the control API keep pairwise distinct identifiers for their whole life; a path is only registered if all the filters it names exist; a filter that some registered path uses cannot be removed.", "quantifier": "every sequence of control commands with arbitrary arguments", "why_tests_cant": "Registration state is built by an unbounded history of user commands.", "anchors": ["src/PipelineManager.cpp:addFilter,createPath,removeFilter,removePath,connectPath", "src/Path.cpp:hasFilter"]}
{"id": "C15", "title": "A failed control command leaves the pipeline unchanged", "statement": "A control command that answers with an error leaves the set of filters, the set of paths and the connections exactly as they were.", "quantifier": "every reachable pipeline state and every command", "why_tests_cant": "Partial failures depend on which intermediate hop fails.", "anchors": ["src/PipelineManager.cpp:createPathEvent,connectPath,createPath", "src/Filter.cpp:connect,setReader,shareReader"]}
{"id": "C16", "title": "Stopping the pipeline releases everything exactly once", "statement": "Stopping a pipeline with any number of paths and filters terminates, releases every path and every filter exactly once and uses none of them afterwards.", "quantifier": "every reachable pipeline state", "why_tests_cant": "Depends on the number of paths and how they share filters.", "anchors": ["src/PipelineManager.cpp:stop,deletePath"]}
{"id": "C17", "title": "A filter never has more inputs than it declares", "statement": "The number of inputs connected to a filter never exceeds the maximum the filter declared, identifiers of the inputs of one filter are distinct, and a refused connection does not register an input.", "quantifier": "every sequence of connect and disconnect requests, including grouped (shared) connections", "why_tests_cant": "Depends on the mix of plain and shared connections over the history.", "anchors": ["src/Filter.cpp:setReader,shareReader,deleteReader,connect,groupConnect"]}
{"id": "C18", "title": "Written JSON parses back to the same value", "statement": "Serialising a JSON value and parsing the text yields the same value, for values built from objects, arrays, strings, numbers, booleans and null.", "quantifier": "every JSON tree of any depth and width with arbitrary strings", "why_tests_cant": "Escape sequences and nesting combine without bound.", "anchors": ["src/Jzon.cpp:Writer,Parser,Value::EscapeString,Value::UnescapeString"]}
{"id": "C19", "title": "Any control message is answered, and one bad message does not affect the next", "statement": "Parsing any byte string terminates without undefined behaviour and either yields a value or reports an error; the result of parsing a message does not depend on the messages parsed before.", "quantifier": "every sequence of byte strings received on the control socket", "why_tests_cant": "Malformed inputs are unbounded and the effect shows up in a later, well-formed message.", "anchors": ["src/Jzon.cpp:Parser::Parse,tokenize,assemble", "src/Controller.cpp:readAndParse,processRequest"]}
{"id": "C20", "title": "Names of codecs, formats and filter types convert back and forth", "statement": "Every codec, sample format, pixel format, filter type and transport format that has a textual name is recovered from that name, distinct values have distinct names, and an unknown text maps to the 'none' value and never to a valid one.", "quantifier": "every enumeration value and every string", "why_tests_cant": "The set of strings is infinite; tests check a few names.", "anchors": ["src/Utils.cpp:getSampleFormatFromString,getPixTypeFromString,getAudioCodecFromString,getVideoCodecFromString,getFilterTypeFromString,getTxFormatFromString"]}
{"id": "C21", "title": "A DASH initialisation segment is a well-formed ISO file", "statement": "Every initialisation segment written is a sequence of complete boxes whose declared sizes are exactly the bytes they contain, at every nesting level, with the track, timescale, dimensions and decoder configuration that were supplied.", "quantifier": "every decoder configuration (any length), width, height, timescale, sample rate and channel count", "why_tests_cant": "Sizes are patched by hand in twenty nested functions; a wrong size appears only for some configuration lengths.", "anchors": ["src/modules/dasher/i2libisoff.c:initVideoGenerator,initAudioGenerator,write_moov", "src/modules/dasher/i2libdash.c:new_init_video_handler,new_init_audio_handler"]}
{"id": "C22", "title": "A DASH media segment contains exactly the samples fed to it", "statement": "Parsing a media segment as an ISO fragment gives back, in order, the bytes, duration, composition offset and key-frame flag of every sample added since the previous segment; the declared data offset points at the first sample byte and the index entry covers exactly the movie fragment and its data.", "quantifier": "every number of samples, sample sizes and timestamps", "why_tests_cant": "Offsets depend on the number of samples and on nested sizes; players only fail on particular streams.", "anchors": ["src/modules/dasher/i2libisoff.c:segmentGenerator,write_moof,write_trun,write_sidx,write_mdat", "src/modules/dasher/i2libdash.c:add_video_sample,add_audio_sample,finish_segment"]}
{"id": "C23", "title": "DASH segmentation cuts on key frames and conserves time", "statement": "A video segment is only closed when the next frame is a key frame and the target duration is reached, every segment starts with a key frame, no sample is lost or used twice across segments, and consecutive segments are contiguous in time: each one starts where the previous one ended.", "quantifier": "every sequence of frames with arbitrary non-decreasing timestamps and key-frame patterns", "why_tests_cant": "Needs long streams with irregular timestamps, including 32-bit wrap around.", "anchors": ["src/modules/dasher/i2libdash.c:generate_video_segment,add_video_sample,generate_audio_segment,add_audio_sample", "src/modules/dasher/Dasher.cpp:generateSegment"]}
{"id": "C24", "title": "NAL units survive the conversion to length-prefixed form", "statement": "The samples the DASH segmenter builds, split by their four-byte length prefixes, are exactly the NAL units of the access unit received with start codes, without the ones that are carried elsewhere (parameter sets, access unit delimiters), in order.", "quantifier": "every sequence of NAL units with any content and size and both start code lengths", "why_tests_cant": "Content is arbitrary bytes, including bytes that look like start codes or lengths.", "anchors": ["src/modules/dasher/DashVideoSegmenter.cpp:parseNal,appendNalToFrame,detectStartCode", "src/modules/dasher/DashVideoSegmenterAVC.cpp:parseNal", "src/modules/dasher/DashVideoSegmenterHEVC.cpp:parseNal"]}
{"id": "C25", "title": "Decoder configuration records describe the parameter sets received", "statement": "The decoder configuration written for an AVC or HEVC track contains exactly the parameter sets received, with correct counts and lengths, and its profile and level fields are those of the sequence parameter set.", "quantifier": "every content and length of the parameter sets", "why_tests_cant": "Field offsets depend on variable-length contents.", "anchors": ["src/modules/dasher/DashVideoSegmenterAVC.cpp:createExtradata", "src/modules/dasher/DashVideoSegmenterHEVC.cpp:createExtradata"]}
{"id": "C26", "title": "AAC stream headers are decoded correctly", "statement": "From an ADTS header the system recovers the profile, sampling frequency index and channel configuration that the header encodes and builds from them an AudioSpecificConfig that decodes to the same values.", "quantifier": "all ADTS headers, i.e. every profile, frequency index and channel configuration", "why_tests_cant": "Bit fields straddle bytes; stereo-only tests miss other layouts.", "anchors": ["src/modules/dasher/DashAudioSegmenter.cpp:getMetadata,getProfileFromADTSHeader,getChannelConf", "src/modules/transmitter/ADTSStreamParser.cpp"]}
{"id": "C27", "title": "The DASH manifest lists a sliding window of the newest segments", "statement": "For each adaptation set the manifest lists at most the configured number of segments, they are the most recent ones, in publication order and without gaps, and every segment that leaves the list is reported for deletion exactly once, in order.", "quantifier": "every sequence of published segments, interleaved with reconfiguration of the window length", "why_tests_cant": "The window is a function of the whole publication history.", "anchors": ["src/modules/dasher/MpdManager.cpp:updateTimestamp,configure,updateAdaptationSetTimestamp,flushAdaptationSetTimestamp", "src/modules/dasher/Dasher.cpp:cleanSegments"]}
{"id": "C28", "title": "The audio mixer's output stays within full scale", "statement": "If every input sample has magnitude at most one and all gains are within [0,1], every mixed output sample has magnitude at most one, whatever the number of inputs, and a single input below the compression threshold passes through scaled only by its gains.", "quantifier": "every number of inputs, every sample value and every sequence of frames", "why_tests_cant": "Real-valued samples and arbitrary many inputs.", "anchors": ["src/modules/audioMixer/AudioMixer.cpp:mixSample,pushToBuffer,setChannelGain"]}
{"id": "C29", "title": "The audio mixer places each sample at its time and emits each position once", "statement": "A sample is mixed at the position given by its presentation time relative to the mixer's time origin; every position is emitted exactly once and in order, with the timestamp of that position; samples that arrive too late are ignored and no stale sample is ever mixed into a later position.", "quantifier": "every sequence of input frames with arbitrary timestamps and of output requests", "why_tests_cant": "The ring position depends on timestamps of all inputs over the whole history.", "anchors": ["src/modules/audioMixer/AudioMixer.cpp:pushToBuffer,extractMixedFrame,doProcessFrame"]}
{"id": "C30", "title": "The video mixer draws every enabled channel once, in layer order, inside the layout", "statement": "In each output picture every enabled channel with a frame is drawn exactly once, channels on higher layers are drawn after channels on lower layers, and nothing is written outside the layout picture.", "quantifier": "every number of channels, every layer assignment, position and size", "why_tests_cant": "Configuration space is a product of real-valued positions and layer assignments.", "anchors": ["src/modules/videoMixer/VideoMixer.cpp:doProcessFrame,pasteToLayout,configChannel0"]}
{"id": "C31", "title": "The video splitter's crops lie inside the picture", "statement": "Each output of the splitter is the configured rectangle of the input picture, lies entirely inside it, has the announced size and length, and a crop that does not fit produces no output.", "quantifier": "every crop configuration and every input picture size", "why_tests_cant": "Boundary combinations of four fractions and two sizes.", "anchors": ["src/modules/videoSplitter/VideoSplitter.cpp:doProcessFrame,configCrop0"]}
{"id": "C32", "title": "UltraGrid packets reassemble into the original frame", "statement": "The packets into which a video frame is fragmented carry increasing offsets, each packet's payload fits the packet size, only the last packet is marked last, and placing each payload at its announced offset reproduces the frame exactly.", "quantifier": "every frame content and length and every packet size", "why_tests_cant": "Fragment boundaries depend on frame length modulo payload size.", "anchors": ["src/modules/transmitter/UltraGridVideoRTPSink.cpp:UltraGridVideoFragmenter::doGetNextFrame"]}
{"id": "C33", "title": "RTP payload headers encode the payload size", "statement": "The AU header of an MPEG-4 generic packet and the UltraGrid audio header decode to the payload size, buffer number, offset, sample rate and quantisation that were sent.", "quantifier": "every payload size and header field value", "why_tests_cant": "Bit fields overflow only for large values.", "anchors": ["src/modules/transmitter/CustomMPEG4GenericRTPSink.cpp:doSpecialFrameHandling", "src/modules/transmitter/UltraGridAudioRTPSink.cpp"]}
{"id": "C34", "title": "A process reading shared memory only sees complete frames", "statement": "A reader process that follows the access flag sees only complete frames: payload and header that belong together, never one being overwritten, each frame at most once and in order; and the header decodes to the frame's dimensions, codec, format, timestamp and length.", "quantifier": "every interleaving of writer and reader processes and every frame", "why_tests_cant": "Torn reads are schedule dependent.", "anchors": ["src/modules/sharedMemory/SharedMemory.cpp:writeFramePayload,isWritable,writeSharedMemoryRAW,writeSharedMemoryH264,setSeqNum"]}
{"id": "C35", "title": "H.264 resolution is recovered from the sequence parameter set", "statement": "Removing emulation prevention bytes inverts their insertion, Exp-Golomb reading inverts Exp-Golomb writing, reading never goes outside the given buffer, and the picture size computed from a sequence parameter set is the one it encodes.", "quantifier": "every byte string (safety) and every field value (correctness)", "why_tests_cant": "Arbitrary network input and an unbounded code.", "anchors": ["src/modules/transmitter/SPSparser/bs.h:bs_read_u1,bs_read_u,bs_read_ue,bs_read_se", "src/modules/transmitter/SPSparser/h264_stream.c:nal_to_rbsp,read_seq_parameter_set_rbsp", "src/modules/transmitter/H264VideoStreamSampler.cpp:updateSPSInfo"]}
{"id": "C36", "title": "Parameter sets are extracted from stream configuration data intact", "statement": "From configuration data made of start-code separated NAL units, the transmitter recovers each NAL unit completely and in order and never reads outside the data.", "quantifier": "every sequence of NAL units of any length", "why_tests_cant": "Length truncation appears only for long units; over-read only at certain endings.", "anchors": ["src/modules/transmitter/H264or5QueueSource.cpp:parseExtradata,feedHeaders,startOffset"]}
{"id": "C37", "title": "Demuxed access units are split into NAL frames without losing bytes", "statement": "Splitting a demuxed Annex B packet yields one frame per NAL unit, in order, each with a four-byte start code followed by exactly the unit's bytes.", "quantifier": "every packet content", "why_tests_cant": "Depends on where start codes fall, in particular close to the end of the packet.", "anchors": ["src/modules/headDemuxer/HeadDemuxerLibav.cpp:findStartCode,doProcessFrame"]}
{"id": "C38", "title": "Synchronised filters never go back in time", "statement": "A filter that works at a fixed frame rate with synchronisation processes frames at non-decreasing reference times and only reports 'synchronised' when each of its inputs is within the margin or has nothing newer.", "quantifier": "every arrival pattern and timestamp sequence on any number of inputs", "why_tests_cant": "The reference time evolves over an unbounded history of arrivals.", "anchors": ["src/Filter.cpp:framesSync,frameTimeProcessing"]}
{"id": "C39", "title": "Encoded pictures carry the timestamps of the picture they encode", "statement": "Each encoded picture delivered carries the presentation time, origin time and sequence number of the input picture it encodes, and the stored timing records do not grow without bound, even with picture reordering.", "quantifier": "every reordering pattern an encoder may produce", "why_tests_cant": "Depends on encoder look-ahead and B-frame patterns over long runs.", "anchors": ["src/modules/videoEncoder/VideoEncoderX264or5.cpp:doProcessFrame"]}
{"id": "C40", "title": "Segment file names are distinct for distinct segments", "statement": "Two different segments (different stream or different start time) are never written to the same file, and an initialisation segment never overwrites a media segment.", "quantifier": "every base name, representation identifier and timestamp", "why_tests_cant": "Injectivity over all strings and numbers.", "anchors": ["src/modules/dasher/Dasher.cpp:getSegmentName,getInitSegmentName"]}
{"id": "C41", "title": "Network connections have unique identifiers and release their inputs", "statement": "Connections of the sink manager have pairwise distinct identifiers, are only created on inputs that exist, and removing an input removes every connection that uses it, each released exactly once.", "quantifier": "every sequence of add, remove and disconnect commands", "why_tests_cant": "History dependent resource bookkeeping.", "anchors": ["src/modules/transmitter/SinkManager.cpp:addRTPConnection,removeConnection,removeConnectionByReaderId,specificReaderDelete"]}
{"id": "C42", "title": "NAL units sent over RTP lose only what is reported as truncated", "statement": "A NAL unit delivered to a network sink has its start code removed or added as configured, and the delivered size plus the number reported as truncated always equals the unit's size; what is delivered is its prefix.", "quantifier": "every unit content, size and buffer size", "why_tests_cant": "Boundary between buffer size and unit size.", "anchors": ["src/modules/transmitter/H264or5QueueSource.cpp:deliverFrame", "src/modules/transmitter/QueueSource.cpp:deliverFrame", "src/modules/transmitter/H264or5StartCodeInjector.cpp"]}
{"id": "C43", "title": "The audio buffer's fill level is exact under concurrent use", "statement": "While one thread adds audio to a buffer and another takes audio from it, the amount the buffer believes it holds equals the amount accepted minus the amount delivered whenever no call is in progress.", "quantifier": "every interleaving of the writing and the reading thread and all frame sizes", "why_tests_cant": "The race window is two instructions wide.", "anchors": ["src/AudioCircularBuffer.cpp:pushBack,popFront,fillOutputBuffers,getFront,addFrame"]}
{"id":"C44","title":"A control message carries out exactly the commands it contains","statement":"A request whose events are well-formed commands has exactly the effect of these commands in order and its answer says for each whether it succeeded, whatever the order of the members, the formatting and extra members; no other bytes change the pipeline.","quantifier":"every list of commands with arbitrary integer arguments, every formatting, and every sequence of byte strings on the control socket","why_tests_cant":"The space of messages and of histories of messages on one parser is infinite; the parser keeps state between messages, so a test of single messages misses the interaction.","anchors":["src/Controller.cpp: readAndParse, processRequest","src/PipelineManager.cpp: processEvent, createFilterEvent, createPathEvent, removePathEvent, removeFilterEvent, stopEvent","src/Jzon.cpp: Parser, Object::Get, Value::ToInt"]}
{"id": "C45", "title": "A frame handed to a network source is delivered at most once and not lost", "statement": "Every frame handed to the source of a network sink is delivered to it at most once and in order, and while the sink keeps asking, a frame is only returned to its queue after it has been delivered.", "quantifier": "every interleaving of handing over, collecting, requests, triggers and stops", "why_tests_cant": "Duplicates and losses depend on whether the network thread asks again before the worker collects.", "anchors": ["src/modules/transmitter/QueueSource.cpp:doGetNextFrame,deliverFrame,gotFrame,setFrame", "src/modules/transmitter/H264or5QueueSource.cpp:deliverFrame"]}
{"id": "C46", "title": "Pictures sent to UltraGrid are the units between access unit delimiters", "statement": "Each picture handed to the UltraGrid packetiser consists of exactly the NAL units since the previous access unit delimiter, in order, each behind a start code or its length, and units are lost only as reported.", "quantifier": "every sequence of NAL units and every buffer size", "why_tests_cant": "Unbounded streams of units; the boundary where a picture just does not fit.", "anchors": ["src/modules/transmitter/H264VideoStreamSampler.cpp:doGetNextFrame,afterGettingFrame1,resetInternalValues"]}
{"id": "C47", "title": "Intra pictures on a common time grid", "statement": "With a GOP time set, an encoder asks for an intra picture at the first picture and then exactly at the first picture on or after each multiple of the GOP time from its reference, so encoders with the same GOP time and reference put intra pictures at the same frames; a request for an intra picture is honoured by the next picture encoded.", "quantifier": "every sequence of picture times, every answer of the codec, every pair of encoders", "why_tests_cant": "The reference advances over an unbounded stream with arbitrary spacing of pictures and arbitrary codec failures.", "anchors": ["src/modules/videoEncoder/VideoEncoderX264or5.cpp:doProcessFrame,setGopReferenceTimeEvent,forceIntraEvent"]}
{"id": "C48", "title": "Encoder settings are set as asked", "statement": "A refused configuration of a video encoder changes nothing; an accepted one sets exactly the fields it names; nonsensical values are refused; the pacing follows the configured frame rate.", "quantifier": "every state reachable through any sequence of events and pictures, and every request", "why_tests_cant": "Requests name arbitrary subsets of fields with arbitrary values, after arbitrary earlier requests.", "anchors": ["src/modules/videoEncoder/VideoEncoderX264or5.cpp:configure0,configEvent"]}
{"id": "C49", "title": "Received data reach the connected output", "statement": "From the moment an output is connected to a receiving port, every piece of data the network source hands over becomes exactly one frame of that output, in order, with its bytes (up to the size of a frame), its length, its presentation time and consecutive sequence numbers from 0; the port never stops asking for data.", "quantifier": "every history of sessions, connections and disconnections before, every interleaving of filter rounds, scheduled tasks and arrivals after, all data and sizes", "why_tests_cant": "Whether the first frame is right depends on what the sink had asked for before the connection, and later ones on the interleaving of rounds, tasks and arrivals.", "anchors": ["src/modules/receiver/QueueSink.cpp:continuePlaying,afterGettingFrame,setFrame", "src/modules/receiver/SourceManager.cpp:doProcessFrame", "src/Filter.cpp:serverProcessFrame,HeadFilter::runDoProcessFrame,demandDestinationFrames,addFrames"]}
{"id": "C50", "title": "A receiving port survives disconnection, removal and the end of the stream", "statement": "Disconnecting and reconnecting outputs, removing sessions and the sender ending its stream, in any order and at any moment, never make the receiver use freed memory, a missing sink or a frame already handed over; and a port whose output was disconnected delivers again after a new connection.", "quantifier": "every history of session starts and removals, connections, disconnections from either side, rounds, arrivals and ends of stream", "why_tests_cant": "The failures depend on whether data were awaited at the moment of the disconnection and on which side left first.", "anchors": ["src/modules/receiver/QueueSink.cpp:disconnect,setFrame", "src/modules/receiver/SourceManager.cpp:removeSession,specificWriterDelete,addSink", "src/modules/receiver/Handlers.cpp:subsessionAfterPlaying", "src/IOInterface.cpp:Writer::disconnect", "src/Filter.cpp:disconnectWriter,deleteWriter"]}
{"id": "C51", "title": "A requested session is described as requested", "statement": "The session description the receiver builds for a request with streams, read by any SDP reader, has the requested name and exactly the requested streams in order, each with its medium, port, bandwidth, payload type, codec, rate and channels; a request is refused exactly when it names an unknown codec.", "quantifier": "every identifier and every list of streams with arbitrary names and numbers", "why_tests_cant": "Names and numbers are arbitrary; a description is only right if an independent reader gets back every field of every request.", "anchors": ["src/modules/receiver/SourceManager.cpp:makeSessionSDP,makeSubsessionSDP,addSessionEvent", "src/Utils.cpp:getPayloadFromCodec"]}
{"id": "C52", "title": "Renaming a source's description changes only the name", "statement": "The description obtained from an RTSP server is handed on with the same lines in the same order, only its session name being replaced, whatever line ends the server uses.", "quantifier": "every description with lines ended by CR LF or by LF, and every name", "why_tests_cant": "Depends on the line ends and on where the name is among arbitrary lines.", "anchors": ["src/modules/receiver/Handlers.cpp:modifySessionName"]}
{"id": "C53", "title": "The register of receiving sessions", "statement": "Sessions have different names at all times; a request for a taken name is refused without effect; an accepted request takes exactly its ports, all free before; a refused request leaves nothing behind; a registered session can be removed at any time, which frees exactly its ports and forgets exactly that session.", "quantifier": "every history of session requests by description or URL, descriptions arriving, streams shut down or ended, connections, disconnections and removals", "why_tests_cant": "Depends on the order of requests, of answers of remote servers and of the ends of streams.", "anchors": ["src/modules/receiver/SourceManager.cpp:addSessionEvent,removeSession,addSession,addSink,Session::initiateSession,Session::~Session,sendTeardown", "src/modules/receiver/Handlers.cpp:shutdownStream,continueAfterSETUP"]}
{"id": "C54", "title": "A playing server hears from the receiver in time", "statement": "Whatever session timeout an RTSP server announces, the receiver's keep-alive requests reach it before the timeout runs out, for as long as the session lasts, at a reasonable rate.", "quantifier": "every announced timeout, every moment and every lateness of requests", "why_tests_cant": "The timeout is any 32-bit number and the session has no bounded length.", "anchors": ["src/modules/receiver/Handlers.cpp:continueAfterPLAY,checkSessionTimeoutBrokenServer"]}
{"id": "C55", "title": "Reported statistics are those of the stream", "statement": "The reported smallest and greatest bit rate, loss, jitter and delay are the smallest and greatest measured values, where each rate and loss is that of the time since the previous measurement, also when packet counters go round.", "quantifier": "every history of measurements, counters, clocks and receiver reports", "why_tests_cant": "Depends on the whole history of values; the counters go round only after billions of packets.", "anchors": ["src/modules/receiver/SourceManager.cpp:SCSSubsessionStats::periodicStatMeasurement", "src/modules/transmitter/Connection.cpp:ConnRTCPInstance::periodicStatMeasurement"]}
{"id": "C56", "title": "Measurements keep their pace", "statement": "Statistics are measured once a second counted from the start: the lateness of one measurement does not delay those after it.", "quantifier": "every start time and every sequence of latenesses", "why_tests_cant": "Drift only shows over long runs; the clock is truncated to 32 bits.", "anchors": ["src/modules/receiver/SourceManager.cpp:scheduleNextStatsMeasurement", "src/modules/transmitter/Connection.cpp:scheduleNextConnStatMeasurement"]}
{"id": "C57", "title": "Pictures are resampled as last requested", "statement": "Every picture the resampler makes has the size and pixel format last asked for (the size of the incoming picture where none was asked for), announces the length of such a picture, lies within its buffer and was converted from exactly the picture given. A picture is made whenever the incoming one and the one wanted are acceptable, whatever came before. The time between pictures is that of the rate last asked for.", "quantifier": "every history of configuration requests and incoming pictures of any sizes and formats", "why_tests_cant": "The conversion is cached across pictures and requests, so correctness depends on the whole history; buffer overrun depends on the size wanted.", "anchors": ["src/modules/videoResampler/VideoResampler.cpp:reconfigure", "src/modules/videoResampler/VideoResampler.cpp:doProcessFrame", "src/modules/videoResampler/VideoResampler.cpp:configEvent", "src/VideoFrame.cpp:InterleavedVideoFrame"]}
{"id": "C58", "title": "Video is decoded by the right decoder and stamped right", "statement": "Whatever coded frames arrive, the video decoder neither crashes nor stops; every picture handed on was made by a decoder for the codec of its frame, carries the presentation time, origin time and sequence number of the coded frame it is a picture of, and lies in its buffer; every picture of a frame is handed on; an error is got over.", "quantifier": "every sequence of coded frames of any codecs, and every answer of the codec library to openings and decodings", "why_tests_cant": "The decoder is kept across frames and reopened on errors and codec changes, so a fault needs a particular history; hanging and delays depend on the answers of the library.", "anchors": ["src/modules/videoDecoder/VideoDecoderLibav.cpp:doProcessFrame", "src/modules/videoDecoder/VideoDecoderLibav.cpp:inputConfig", "src/modules/videoDecoder/VideoDecoderLibav.cpp:toBuffer", "src/modules/videoDecoder/VideoDecoderLibav.cpp:reconfigure"]}
{"id": "C59", "title": "Audio is decoded by the right decoder, converted to the settings and stamped right", "statement": "Whatever coded frames arrive and whatever settings are asked for, the audio decoder neither crashes nor stops nor writes outside the frame it fills; every frame handed on holds the samples decoded from the coded frame, by a decoder for its codec, channels and rate, converted from what was decoded to the settings last asked for, with the presentation time, origin time and sequence number of the coded frame; nothing is handed on twice; a failure is got over.", "quantifier": "every sequence of coded frames of any codecs, channels and rates and of requests, and every answer of the codec and conversion library", "why_tests_cant": "The decoder and the converter are kept across frames, so the conversion applied depends on the whole history; hanging, repeated samples and overruns depend on the answers of the library.", "anchors": ["src/modules/audioDecoder/AudioDecoderLibav.cpp:doProcessFrame", "src/modules/audioDecoder/AudioDecoderLibav.cpp:inputConfig", "src/modules/audioDecoder/AudioDecoderLibav.cpp:outputConfig", "src/modules/audioDecoder/AudioDecoderLibav.cpp:resample", "src/modules/audioDecoder/AudioDecoderLibav.cpp:reconfigureDecoder", "src/AudioFrame.cpp:PlanarAudioFrame"]}
{"id": "C60", "title": "Audio is encoded without loss, repetition or growing delay, in the codec asked for", "statement": "An audio encoder can be configured for every codec it names, whatever was asked before, whenever the library offers it; once configured, whatever audio arrives, it encodes exactly the converted samples, in order, each once, hands on packets with the presentation time, origin time and sequence number of their frame, keeps a bounded delay, and never crashes or stops.", "quantifier": "every sequence of requests and of audio frames of any format, channels and rate, and every answer of the codec and conversion library", "why_tests_cant": "Repeated or waiting samples depend on the ratio of the rates and add up over a history; a failed request changes what later ones do; the library's lists and frame sizes differ between versions.", "anchors": ["src/modules/audioEncoder/AudioEncoderLibav.cpp:configure0", "src/modules/audioEncoder/AudioEncoderLibav.cpp:codingConfig", "src/modules/audioEncoder/AudioEncoderLibav.cpp:resample", "src/modules/audioEncoder/AudioEncoderLibav.cpp:doProcessFrame", "src/modules/audioEncoder/AudioEncoderLibav.cpp:specificReaderConfig", "src/AVFramedQueue.cpp:AudioFrameQueue::setup", "src/AVFramedQueue.cpp:forceGetRear"]}
{"id": "C61", "title": "Parameter sets of a session description reach the readers, and received units arrive complete behind a start code", "statement": "When an H.264 or H.265 stream is received, every unit is handed on behind a start code, complete or cut to the buffer with the rest reported, once, in order and with its time; the configuration data given to readers are all the parameter sets of the session description, and a transmitter announces them; no description and no buffer size makes the receiver write outside its memory.", "quantifier": "every list of parameter sets of a description, every sequence of units, buffer sizes and connections", "why_tests_cant": "Sets from a server can have any number and size; how complete the configuration is depends on when the reader is connected relative to the requests.", "anchors": ["src/modules/receiver/H264VideoSdpParser.cpp:doGetNextFrame", "src/modules/receiver/H264VideoSdpParser.cpp:afterGettingFrame1", "src/modules/receiver/SourceManager.cpp:fillH264or5ExtraData", "src/modules/receiver/SourceManager.cpp:allocQueue", "src/StreamInfo.hh:setExtraData"]}
{"id": "C62", "title": "Frames are numbered without gaps, carry the time of their origin, and wake exactly their readers", "statement": "From the moment an output is connected, a source or a mixer numbers the frames it hands on through it 0, 1, 2, ... with the time they were made, whatever happens to other outputs; splitters and other filters pass on number and origin time; a round hands on one frame for each output its work produced one for, and the filters run next are exactly those that read such a frame, plus the filter itself if it is periodic; a filter never uses a destination that does not exist.", "quantifier": "every history of rounds, connections and disconnections of a filter of any kind, and every outcome of its work", "why_tests_cant": "Gaps and duplicates depend on the interleaving of failed rounds with connections over the life of an output.", "anchors": ["src/Filter.cpp:HeadFilter::runDoProcessFrame", "src/Filter.cpp:OneToManyFilter::runDoProcessFrame", "src/Filter.cpp:ManyToOneFilter::runDoProcessFrame", "src/Filter.cpp:regularProcessFrame", "src/Filter.cpp:serverProcessFrame", "src/Filter.cpp:addFrames", "src/Filter.cpp:setWriter"]}
{"id": "C63", "title": "The delay and the losses reported for a path are those of its recent frames", "statement": "The average delay in the state of a path is the mean delay of the frames of the last complete measurement window, so it lies between their smallest and greatest delay, is at most two windows old, and counts every frame; the losses reported are the sum of those along the path.", "quantifier": "every sequence of frame times and delays, every window length, every path", "why_tests_cant": "Windows are cut by arbitrary frame times over an unbounded history; clocks may be set back.", "anchors": ["src/IOInterface.cpp:measureDelay", "src/IOInterface.hh:Reader", "src/Filter.cpp:getAvgReaderDelay", "src/Filter.cpp:getLostBlocs", "src/PipelineManager.cpp:getStateEvent"]}
{"id": "C64", "title": "A camera is configured as asked, and holds resources exactly while it captures", "statement": "Configuring a closed camera succeeds exactly if the system grants the device, the format, the rate and the buffers, and the camera then captures with what was granted and shows it in its state; if it fails the camera is closed. Whatever the history of configurations and releases, a closed camera holds no descriptor and no mapping, and a capturing one holds its device and all its buffers mapped. A camera that captures can be configured anew.", "quantifier": "every history of calls, every request and every answer of the system to each system call", "why_tests_cant": "Failures can happen at each of a dozen system calls in every call of the history; leaks accumulate over histories.", "anchors": ["src/modules/V4LCapture/V4LCapture.cpp:configure", "src/modules/V4LCapture/V4LCapture.cpp:releaseDevice", "src/modules/V4LCapture/V4LCapture.cpp:initDevice", "src/modules/V4LCapture/V4LCapture.cpp:init_mmap", "src/modules/V4LCapture/V4LCapture.cpp:uninitDevice", "src/modules/V4LCapture/V4LCapture.cpp:doGetState", "src/modules/V4LCapture/V4LCapture.cpp:configureEvent"]}
{"id": "C65", "title": "A camera hands on whole pictures, at the rate they come", "statement": "A round hands on a frame exactly if the driver brings one; the frame holds the driver's picture, its size, format and the time it was taken, and fits. The wait between rounds is at most the frame interval and its tolerance, and does not drift; the interval in force is the configured one or lies within those observed, and follows a driver with another rate; buffers are always given back.", "quantifier": "every sequence of rounds, clock readings, pictures and driver answers", "why_tests_cant": "The average depends on the whole history of frame times; losses and drift show only over long runs.", "anchors": ["src/modules/V4LCapture/V4LCapture.cpp:doProcessFrame", "src/modules/V4LCapture/V4LCapture.cpp:getFrame", "src/modules/V4LCapture/V4LCapture.cpp:readFrame", "src/modules/V4LCapture/V4LCapture.cpp:getAvgFrameDuration"]}
{"id": "C66", "title": "A round of the transmitter sends every new frame and keeps none", "statement": "In a round of the transmitter every new frame of a connected input is taken by its source; if the network plays that input the frame is sent before it is given back, once and in order; when the round ends no source keeps a frame, so the queues can be released. A round ends whatever the receivers do, one input does not hold up the others, and connecting and disconnecting inputs is safe at any moment.", "quantifier": "every history of connections, disconnections and rounds, every set of new frames, every behaviour of the network sinks and every choice of the event loop", "why_tests_cant": "Whether a round ends, and which event trigger is left pending, depends on the order in which the event loop handles triggers and requests, and on how many inputs were ever connected.", "anchors": ["src/modules/transmitter/SinkManager.cpp:SinkManager::doProcessFrame", "src/modules/transmitter/SinkManager.cpp:SinkManager::specificReaderDelete", "src/modules/transmitter/QueueSource.cpp:QueueSource::signalNewFrameData"]}
{"id": "C67", "title": "An RTSP stream is found under its name as long as it is registered", "statement": "A client that asks the RTSP server for a name gets the connection registered under that name, and is refused if there is none. A request that is refused changes no stream. Removing a connection, or an input it uses, takes away just that stream and frees its name; the state shows each connection with its name. Clients coming and going change none of this.", "quantifier": "every history of requests to add and remove connections and inputs and to show the state, with clients joining and leaving at any moment", "why_tests_cant": "What a name leads to, and which session still exists, depends on the whole history of requests with that name and on the clients present at each of them.", "anchors": ["src/modules/transmitter/Connection.cpp:RTSPConnection::startPlaying", "src/modules/transmitter/Connection.cpp:RTSPConnection::stopPlaying", "src/modules/transmitter/SinkManager.cpp:SinkManager::addRTSPConnection", "src/modules/transmitter/SinkManager.cpp:SinkManager::removeConnectionByReaderId"]}
{"id": "C68", "title": "Two threads can share a frame queue without locks", "statement": "One thread writing to a frame queue without forcing and another reading from it, at the same time and without locks: the reader gets exactly the frames published, complete, in order and each once; those it has not got yet are pending and fewer than the capacity; and neither thread is ever blocked by the other or reaches outside the queue.", "quantifier": "every capacity of at least one, every interleaving of single loads and stores of the two threads, every number and content of frames", "why_tests_cant": "A torn or repeated frame needs one particular interleaving of loads and stores, which no test run controls.", "anchors": ["src/AVFramedQueue.cpp:AVFramedQueue::getRear", "src/AVFramedQueue.cpp:AVFramedQueue::addFrame", "src/AVFramedQueue.cpp:AVFramedQueue::getFront", "src/AVFramedQueue.cpp:AVFramedQueue::removeFrame"]}
{"id": "C69", "title": "A forced write drops the newest pending frame and nothing else", "statement": "On a queue of three or more slots, mixing forced and other requests in any order: a forced request always gets a slot, discards a frame exactly if the queue is full, and then just the newest pending one; older frames stay in place and in order; every frame published was finished by the reader, is pending or was counted as lost, as long as the reader finishes only frames it was given.", "quantifier": "every capacity of at least three, every history of requests by writer and reader", "why_tests_cant": "Whether a frame vanishes without being counted depends on where in the ring the positions are when the writer forces.", "anchors": ["src/AVFramedQueue.cpp:AVFramedQueue::forceGetRear", "src/AVFramedQueue.cpp:AVFramedQueue::flush"]}
{"id": "C70", "title": "Whatever bytes reach the control port, identifiers stay unique", "statement": "After any sequence of byte strings on the control port, well formed or not, the filters have pairwise distinct identifiers and objects and so have the paths, and the pipeline is in a state that commands alone lead to. A command that asks for an identifier in use, or a path over a filter that does not exist, is refused and changes nothing.", "quantifier": "every sequence of byte strings and every reaction of the filters", "why_tests_cant": "A sequence of malformed messages that corrupts the register cannot be enumerated.", "anchors": ["src/Controller.cpp:Controller::processRequest", "src/PipelineManager.cpp:PipelineManager::createFilter", "src/PipelineManager.cpp:PipelineManager::createPath"]}
{"id": "C71", "title": "A command sent to a filter is taken once, the earliest first", "statement": "Every command sent to a filter is either still waiting or has been taken exactly once, and nothing else is ever taken; while no new command arrives commands are taken in the order of their time stamps; and a first command whose time has come is taken by the next round.", "quantifier": "every history of commands sent, rounds and clock readings", "why_tests_cant": "Order and loss depend on all interleavings of senders and rounds, with arbitrary delays.", "anchors": ["src/Filter.cpp:BaseFilter::processEvent", "src/Filter.cpp:BaseFilter::pushEvent"]}
{"id": "C72", "title": "Removing a filter from the pool waits until it is not running", "statement": "When the request to remove a filter from the worker pool returns, no worker is executing that filter.", "quantifier": "every number of workers and every interleaving of their steps with additions and removals", "why_tests_cant": "Only a particular preemption shows a removal that returns too early.", "anchors": ["src/WorkersPool.cpp:WorkersPool::removeTask"]}
{"id": "C73", "title": "No history of control commands uses or deletes a queue or filter after its deletion", "statement": "Whatever commands create, connect, disconnect and remove filters and paths or stop the pipeline, in any order and with any failures, no deleted queue is touched and no queue or filter is deleted twice; every filter ever created is either registered or was deleted, once; and when a stop succeeds everything has been deleted exactly once.", "quantifier": "every history of control commands and every reaction of the filters", "why_tests_cant": "A use after free needs a particular order of commands and failures.", "anchors": ["src/PipelineManager.cpp:PipelineManager::stop", "src/PipelineManager.cpp:PipelineManager::removePath", "src/Filter.cpp:BaseFilter::disconnect"]}
{"id": "C74", "title": "Reading a control message always ends, with a value or a refusal", "statement": "Whatever bytes arrived before, reading the next byte string ends without undefined behaviour, with either a value or a refusal; and a message that gets no answer has changed nothing.", "quantifier": "every sequence of byte strings", "why_tests_cant": "Byte strings cannot be enumerated.", "anchors": ["src/Jzon.cpp:Parser::Parse", "src/Controller.cpp:Controller::processRequest"]}
{"id": "C75", "title": "Codec, sample format, filter, role and transport names convert back and forth", "statement": "For sample formats, audio codecs, video codecs, filter types, filter roles and transport formats: a value is recovered from its name, different values have different names, and a text that is not a name gives the 'none' value.", "quantifier": "every value and every text", "why_tests_cant": "Texts cannot be enumerated.", "anchors": ["src/Utils.cpp:getSampleFormatFromString", "src/Utils.cpp:getAudioCodecFromString", "src/Utils.cpp:getVideoCodecFromString", "src/Utils.cpp:getFilterTypeFromString", "src/Utils.cpp:getRoleTypeFromString", "src/Utils.cpp:getTxFormatFromString"]}
{"id": "C76", "title": "A video initialisation segment is a well-formed ISO file with the stream's parameters", "statement": "For every video codec, decoder configuration, picture size below 65536 and time scale: the initialisation segment is a sequence of complete boxes, nested as the format asks, each with the size it declares; it has one video track, and its configuration, width, height and time scale are those supplied.", "quantifier": "every video codec, configuration up to the 32 bit box size, size and time scale, and every earlier state of the context", "why_tests_cant": "Sizes of nested boxes depend on the length of the configuration.", "anchors": ["src/modules/dasher/i2libdash.c:new_init_video_handler"]}
{"id": "C77", "title": "A video segment starts with a key frame and holds consecutive pictures", "statement": "For every stream of pictures: each segment given out is a complete ISO fragment, starts with a key frame and holds consecutive pictures with their bytes, key flags and durations; every picture from the first key frame on is in exactly one segment or still waiting.", "quantifier": "every stream of pictures with any bytes, times and key flags, every target duration, as long as the segment's buffer is not overrun", "why_tests_cant": "Which picture ends a segment depends on all times before.", "anchors": ["src/modules/dasher/DashVideoSegmenter.cpp:DashVideoSegmenter::appendFrameToDashSegment", "src/modules/dasher/i2libdash.c:add_video_sample"]}
{"id": "C78", "title": "The sum of any number of sounds stays within full scale", "statement": "If all samples have magnitude at most one and the master gain lies in [0,1], every sample the audio mixer puts out has magnitude at most one, in exact single precision arithmetic, whatever the number of inputs, the channel gains asked for, the mutes and the resynchronisations; channel gains are always within [0,1].", "quantifier": "every history of frames, controls and resynchronisations", "why_tests_cant": "Rounding of sums of arbitrary many floats cannot be enumerated.", "anchors": ["src/modules/audioMixer/AudioMixer.cpp:AudioMixer::mixSample", "src/modules/audioMixer/AudioMixer.cpp:AudioMixer::pushToBuffer"]}
{"id": "C79", "title": "A mixed picture shows the visible channels in layer order and nothing else", "statement": "Every picture the video mixer makes has the size of the layout and fits its buffer; each pixel is what painting the visible channels once each, lower layers first, on black leaves there; the memory around is untouched; with opaque channels a pixel shows the topmost channel covering it; the picture's time is the latest of its channels.", "quantifier": "every history of configurations and every set of input pictures", "why_tests_cant": "Overlaps of arbitrary rectangles cannot be enumerated.", "anchors": ["src/modules/videoMixer/VideoMixer.cpp:VideoMixer::doProcessFrame", "src/modules/videoMixer/VideoMixer.cpp:VideoMixer::pasteToLayout"]}
{"id": "C80", "title": "Bit fields of a parameter set are read as written, inside the data", "statement": "Whatever the bytes of an H.264 sequence parameter set, nothing outside it is read. Emulation prevention is removed exactly; and Exp-Golomb codes, signed and unsigned, and fixed length fields are read back as written at any bit position.", "quantifier": "every byte string, every payload and every value within the coding range", "why_tests_cant": "Byte strings and bit positions cannot be enumerated.", "anchors": ["src/modules/transmitter/SPSparser/h264_stream.c:nal_to_rbsp", "src/modules/transmitter/SPSparser/bs.h:bs_read_ue"]}
{"id": "C81", "title": "A network source does not repeat or lose frames that are sent as they are", "statement": "Over every history the frames a plain network source delivers are among those handed over, in order, each at most as often as it was handed over; and once the network asks, and until it stops, only frames that were delivered are given back to their queue.", "quantifier": "every history of frames handed over, requests, triggers and stops", "why_tests_cant": "Loss and repetition depend on the order of triggers and requests.", "anchors": ["src/modules/transmitter/QueueSource.cpp:QueueSource::deliverFrame", "src/modules/transmitter/QueueSource.cpp:QueueSource::doGetNextFrame"]}
{"id": "C82", "title": "A filter with a frame time keeps its frame rate and takes each input in order", "statement": "The reference time of a filter never goes back. With a frame time set, the times of the frames that rounds process never go back and keep the frame rate; each processing round moves the reference by the frame time or to the earliest frame beyond it; and what was taken from an input together with what waits is what arrived, in order.", "quantifier": "every history of arrivals, rounds, connections and disconnections, any number of inputs", "why_tests_cant": "Drift and reordering depend on all arrival times.", "anchors": ["src/Filter.cpp:BaseFilter::runDoProcessFrame", "src/Filter.cpp:BaseFilter::demandOriginFramesFrameTime"]}
{"id": "C83", "title": "The transmitter gives back every frame, and sends it first if someone listens", "statement": "Over every history of connections, disconnections and rounds: each new frame of a connected input is taken once and given back by the end of the round; between rounds no frame is kept; at an input that is being played a frame is sent before it is given back, and exactly once if it is sent as it is.", "quantifier": "every history of connections, disconnections and rounds that end, every behaviour of the network sinks, every choice of the event loop", "why_tests_cant": "Depends on the order in which the event loop handles triggers.", "anchors": ["src/modules/transmitter/SinkManager.cpp:SinkManager::doProcessFrame"]}
{"id": "C84", "title": "Receiving sessions have different names and ports of their own", "statement": "Sessions of the receiver have different names, and every port in use belongs to a session. A request for a name in use is refused and changes nothing. An accepted request for streams takes exactly its ports, each free before and different, and changes no other session.", "quantifier": "every history of requests, answers of servers and ends of streams", "why_tests_cant": "Depends on the whole history of names and ports.", "anchors": ["src/modules/receiver/SourceManager.cpp:SourceManager::addSession", "src/modules/receiver/SourceManager.cpp:SourceManager::removeSession"]}
{"id": "C85", "title": "Splitting demuxed packets loses no byte", "statement": "Whatever units a demuxed packet that starts with a start code holds, if each fits a frame, the frames made of it, one after the other, are its units in order with all their bytes, and each frame starts with a four byte start code.", "quantifier": "every packet, any number and contents of units", "why_tests_cant": "Start codes may fall at any position of any packet.", "anchors": ["src/modules/headDemuxer/HeadDemuxerLibav.cpp:HeadDemuxerLibav::doProcessFrame"]}
{"id": "C86", "title": "A fraction in a message arrives as given", "statement": "A decimal number in the text of a message is read as the single precision value nearest to it. A gain, position, size or opacity given to an API call, which sends it as text, takes effect unchanged. What the program writes for such a value is a number its own parser accepts.", "quantifier": "every decimal text of any length; every single precision value", "why_tests_cant": "There are two to the 32 values and infinitely many texts, and whether a value survives its text depends on every bit of it.", "anchors": ["src/Jzon.cpp:Value::Set", "src/Jzon.cpp:Value::ToFloat", "src/Jzon.cpp:Parser::interpretValue", "src/modules/videoMixer/VideoMixer.cpp:VideoMixer::configChannel", "src/modules/audioMixer/AudioMixer.cpp:AudioMixer::changeChannelGain"]}
{"id": "C87", "title": "An event does what it says", "statement": "An event sent to a filter, by a control message or a call of the programming interface, orders the filter to do what its action and parameters say: members may come in any order and other members do not matter. Settings the event does not name stay as they are. An unknown action, or an event without a parameter it needs, is ignored. No event ends the program.", "quantifier": "every filter of the audio mixer, video mixer, splitter, resampler, audio and video coder, dasher, demuxer, transmitter and receiver kinds; every action and every JSON value as parameters; every argument of the calls", "why_tests_cant": "Parameters are arbitrary JSON values, of any names, kinds and number.", "anchors": ["src/Filter.cpp:BaseFilter::processEvent", "src/modules/audioMixer/AudioMixer.cpp:changeChannelVolumeEvent", "src/modules/videoMixer/VideoMixer.cpp:configChannelEvent", "src/modules/videoSplitter/VideoSplitter.cpp:configureEvent", "src/modules/videoResampler/VideoResampler.cpp:configEvent", "src/modules/audioDecoder/AudioDecoderLibav.cpp:configEvent", "src/modules/audioEncoder/AudioEncoderLibav.cpp:configEvent", "src/modules/videoEncoder/VideoEncoderX264or5.cpp:configEvent", "src/modules/dasher/Dasher.cpp:configureEvent", "src/modules/headDemuxer/HeadDemuxerLibav.cpp:configureEvent", "src/modules/transmitter/SinkManager.cpp:addRTSPConnectionEvent", "src/modules/receiver/SourceManager.cpp:addSessionEvent"]}
{"id": "C88", "title": "The manifest says what is published", "statement": "Every manifest file the dasher writes is XML a player can read. In it the player finds the configured update period, window and buffer time, the date of the first manifest as start of availability, the file name templates of the base name, the times of the newest segments in the time scale of the set, and every stream that is there once, with the codec, size or sample rate, channels and bandwidth last told. The greatest width and height and the frame rate are those of the streams that are there.", "quantifier": "every history of configurations, segments of any streams, removals and writings; every base name", "why_tests_cant": "Histories are unbounded and interleave streams, removals and reconfigurations; base names are arbitrary text that must survive quoting.", "anchors": ["src/modules/dasher/MpdManager.cpp:MpdManager::writeToDisk", "src/modules/dasher/MpdManager.cpp:VideoAdaptationSet::toMpd", "src/modules/dasher/MpdManager.cpp:AudioAdaptationSet::toMpd", "src/modules/dasher/Dasher.cpp:generateSegment"]}
{"id": "C89", "title": "The state report tells what was set", "statement": "What getState answers about a filter has its number, type, role and the values it works with, each under one name and as given. After an event the report tells every parameter the event set, with the value given. An entry of the report sent back as the parameters of the action that sets it, or the whole object with \"configure\", changes nothing. The text of the answer is read by a JSON reader as the answer.", "quantifier": "every filter of each kind in every state its histories of events, frames and connections lead to; every event; every report", "why_tests_cant": "States, histories and parameter combinations are unbounded; names in reports and in events are written separately in each filter.", "anchors": ["src/PipelineManager.cpp:PipelineManager::getStateEvent", "src/Filter.cpp:BaseFilter::getState", "src/modules/audioMixer/AudioMixer.cpp:AudioMixer::doGetState", "src/modules/videoMixer/VideoMixer.cpp:VideoMixer::doGetState", "src/modules/videoSplitter/VideoSplitter.cpp:VideoSplitter::doGetState", "src/modules/dasher/Dasher.cpp:Dasher::doGetState", "src/modules/transmitter/SinkManager.cpp:SinkManager::doGetState"]}
{"id": "C90", "title": "A stream announced over RTSP is received as what it is", "statement": "The description of an RTSP session has one medium per stream, in order, each with a valid payload type of its own or a fixed one that means what is sent, under its registered name, with the bandwidth the stream takes. A receiver of this program that reads the description gets each stream with its codec, sample rate, channels and sample format.", "quantifier": "every session of up to 32 streams of every codec, format, rate and channel count, every head and format line", "why_tests_cant": "Combinations of codecs, formats, rates and numbers of streams are unbounded; the names are written in the transmitter and read in the receiver.", "anchors": ["src/modules/transmitter/AudioQueueServerMediaSubsession.cpp:AudioQueueServerMediaSubsession::createNewRTPSink", "src/modules/transmitter/AudioQueueServerMediaSubsession.cpp:AudioQueueServerMediaSubsession::createNewStreamSource", "src/modules/transmitter/Connection.cpp:RTSPConnection::addRawAudioSubsession", "src/modules/transmitter/Connection.cpp:RTSPConnection::addRawVideoSubsession", "src/modules/transmitter/CustomMPEG4GenericRTPSink.cpp:CustomMPEG4GenericRTPSink::auxSDPLine", "src/modules/receiver/SourceManager.cpp:createStreamInfo", "src/StreamInfo.hh:setCodecDefaults"]}
{"id": "C91", "title": "An RTP connection sends where it was told", "statement": "A request for a plain RTP connection is refused, with nothing left open, unless its address is one and its port an even port number; otherwise the stream is sent to exactly that address and port, its control packets to the next port, from a free pair of neighbouring ports, under the payload type and name it has over RTSP. Setting up ends, and a refused or removed connection leaves nothing open.", "quantifier": "every address text, port, stream and host (which ports can be opened at which time)", "why_tests_cant": "The ports other programs hold, and when, are the host's; ports and addresses range over all integers and texts.", "anchors": ["src/modules/transmitter/Connection.cpp:RTPConnection::firstStepSetup", "src/modules/transmitter/Connection.cpp:VideoConnection::additionalSetup", "src/modules/transmitter/Connection.cpp:AudioConnection::additionalSetup", "src/modules/transmitter/Connection.cpp:RTPConnection::~RTPConnection", "src/modules/transmitter/SinkManager.cpp:SinkManager::addStdRTPConnection"]}
{"id": "C92", "title": "Opening a source tells its streams as they are", "statement": "After any history the demuxer lists the streams of the source opened last, each under its number, with its kind, codec, rate, channels and parameters; a source that cannot be opened gives an error, no streams and no data. Exactly the streams the program can carry connect, a connected filter is told its stream and never reads freed memory, a stream said to come one NAL unit per frame does so, and what opening allocates is freed.", "quantifier": "every sequence of openings, connections, disconnections and queries, every list of streams and answer of libav", "why_tests_cant": "Sources, orders of openings and connections are unbounded, and reading freed memory shows in a test only by chance.", "anchors": ["src/modules/headDemuxer/HeadDemuxerLibav.cpp:HeadDemuxerLibav::setURI", "src/modules/headDemuxer/HeadDemuxerLibav.cpp:HeadDemuxerLibav::reset", "src/modules/headDemuxer/HeadDemuxerLibav.cpp:HeadDemuxerLibav::allocQueue", "src/modules/headDemuxer/HeadDemuxerLibav.cpp:HeadDemuxerLibav::getSampleFormatFromLibav", "src/Filter.cpp:BaseFilter::connect", "src/Filter.cpp:BaseFilter::setWriter", "src/FrameQueue.hh:getStreamInfo"]}
{"id": "C93", "title": "Sound handed out carries its capture time", "statement": "The audio buffer cuts sound into frames of its own size; each frame it hands out carries the time at which its first sample was captured: if all frames put in were captured a fixed time after their presentation time, so was, within the buffer's tolerance, every frame handed out, so that the delay reported for a path does not depend on the framing.", "quantifier": "every history of frames put in, of any sizes and times, and of requests for frames", "why_tests_cant": "The result depends on the fill level and the sizes at the moment of each request, for unboundedly many histories.", "anchors": ["src/AudioCircularBuffer.cpp:AudioCircularBuffer::getFront", "src/AudioCircularBuffer.cpp:AudioCircularBuffer::addFrame"]}
{"id": "C94", "title": "Granted paths carry frames, to all their readers, until they are removed", "statement": "When createPath is granted, the origin feeds the first filter of the path from the output asked for, every filter feeds the next, and the last feeds the destination at the input asked for, also when the path is grouped on an output another path uses. The filters told of the frames of an output are exactly those it feeds, each once, so none that is gone; an input is fed by one output and an output feeds a filter at one input. A granted removePath unregisters the path, frees its input and deletes the filters in between. Every other connection between filters that are still there survives every command, whatever its answer.", "quantifier": "every history of filter and path commands, stops and clean-ups of dead ends, with any answers of the filters to the configuration of inputs and outputs", "why_tests_cant": "Grouping shares readers between filters, and removal looks entries up by filter only; whether an unrelated connection is cut depends on the whole history of sharing.", "anchors": ["src/PipelineManager.cpp:PipelineManager::connectPath", "src/PipelineManager.cpp:PipelineManager::handleGrouping", "src/PipelineManager.cpp:PipelineManager::deletePath", "src/Filter.cpp:BaseFilter::shareReader", "src/Filter.cpp:BaseFilter::disconnectReader", "src/IOInterface.cpp:Reader::disconnect", "src/FrameQueue.hh:FrameQueue::addReaderCData", "src/AVFramedQueue.cpp:AVFramedQueue::addFrame"]}
{"id": "C95", "title": "What the receiver reports of its sessions is what arrived", "statement": "getState of the receiver tells every session once under its name, with each stream of its description in order: port, medium, codec and the statistics of that port. The least, mean and greatest bit rate and packet loss told of a stream are in order, the means being those since the stream was set up; the least and greatest rate, loss and jitter are attained in some interval between measurements and bound all of them; the gaps between packets told are the least, greatest and mean gap in milliseconds.", "quantifier": "every set of sessions, every history of measurements and of what arrived between them, including streams that come late", "why_tests_cant": "The figures are folded over an unbounded history of measurements; the order between mean and extremes has to hold for every sequence of rates and losses.", "anchors": ["src/modules/receiver/SourceManager.cpp:SourceManager::doGetState", "src/modules/receiver/SourceManager.cpp:StreamClientState::getSubsessionStats", "src/modules/receiver/SourceManager.cpp:SCSSubsessionStats::periodicStatMeasurement"]}
{"id": "C96", "title": "Sessions of RTSP servers are set up stream by stream", "statement": "When a session of an RTSP server is added, its description is asked for, then every stream of it that can be received is set up once and in order, whatever the server answers for each, and then the session is played; nothing is asked before the previous answer came. One stream refused does not keep the others from being received: as long as no two streams share a port, exactly the streams the server agreed to send are received, until the server ends them, the session ends or it is removed. A session of known length ends two seconds after that length. A session ends with one TEARDOWN. Removing a session ends its own streams and no other.", "quantifier": "every set of sessions, every description, every answer of every server, and every interleaving of the answers, ends of streams, timers and removals", "why_tests_cant": "The conversation is driven by callbacks of several servers in any order; which streams are received depends on the whole history of answers, ports in use and removals.", "anchors": ["src/modules/receiver/Handlers.cpp:continueAfterDESCRIBE", "src/modules/receiver/Handlers.cpp:continueAfterSETUP", "src/modules/receiver/Handlers.cpp:continueAfterPLAY", "src/modules/receiver/Handlers.cpp:setupNextSubsession", "src/modules/receiver/Handlers.cpp:shutdownStream", "src/modules/receiver/SourceManager.cpp:SourceManager::removeSession", "src/modules/receiver/SourceManager.cpp:SourceManager::addSink"]}
{"id": "C97", "title": "The control port keeps serving", "statement": "As long as the program runs, every client that connects to the control port and sends a request gets an answer, after those that connected before it and whatever they did: left early, were cut off, said nothing, or sent what is not JSON. No connection is left open once its client is done with. The messages carried out are those that were sent, in order. The port listened at is the one given.", "quantifier": "every sequence of clients of any length, each sending any bytes in any pieces, leaving, losing its connection or staying silent; every limit on open connections", "why_tests_cant": "Connections that are not closed only matter after as many clients as there are descriptors; a silent or departing client must come at the right moment.", "anchors": ["src/Controller.cpp:Controller::listenSocket", "src/Controller.cpp:Controller::readAndParse", "src/Controller.cpp:Controller::sendAndClose", "tests/liveMediaStreamer.cpp:main"]}
{"id": "C98", "title": "There is one controller and one pipeline", "statement": "Whoever asks for the controller or the pipeline gets the one that exists, and if it was destroyed a new one; nobody gets a destroyed one, and none is destroyed twice. The controller's pipeline is the pipeline.", "quantifier": "every sequence of requests for, and destructions of, the controller and the pipeline", "why_tests_cant": "Which object is given depends on the whole history of requests and destructions; a destroyed object often still looks alive.", "anchors": ["src/Controller.cpp:Controller::getInstance", "src/Controller.cpp:Controller::destroyInstance", "src/Controller.cpp:Controller::pipelineManager", "src/PipelineManager.cpp:PipelineManager::getInstance", "src/PipelineManager.cpp:PipelineManager::destroyInstance"]}
{"id": "C99", "title": "Threads do not block each other for ever", "statement": "Whatever requests are made at the control port and whatever filters the workers run at the same time, every request and every round of a filter that was begun can be finished: there are never threads of which each waits for a lock another one of them has, or for a filter another one of them is running.", "quantifier": "every number of workers, every sequence of requests, every set of filters and connections, every interleaving of the threads' steps", "why_tests_cant": "A deadlock needs several threads to be at particular points at once; that none exists is a statement about all interleavings.", "anchors": ["src/Filter.cpp:BaseFilter::connect", "src/Filter.cpp:BaseFilter::shareReader", "src/Filter.cpp:BaseFilter::sendEvent", "src/Filter.cpp:BaseFilter::pendingJobs", "src/IOInterface.cpp:Reader::removeFrame", "src/WorkersPool.cpp:WorkersPool::WorkersPool", "src/WorkersPool.cpp:WorkersPool::removeTask", "src/PipelineManager.cpp:PipelineManager::createPath", "src/PipelineManager.cpp:PipelineManager::processFilterEvent", "src/modules/dasher/Dasher.cpp:Dasher::sendSetReferenceEvent"]}
{"id": "C100", "title": "The report tells of the receivers there are", "statement": "The statistics that the state of a transmitter lists for a connection are those of the receivers it has at that time: every one of them once, and none that has gone.", "quantifier": "every sequence of receivers coming and going, and every choice of the numbers they are registered with", "why_tests_cant": "Receivers are registered under random numbers; what happens when two are the same never shows in a test, and a report of a receiver that has gone reads freed memory that often still looks right.", "anchors": ["src/modules/transmitter/Connection.hh:Connection::addConnectionRTCPInstance", "src/modules/transmitter/Connection.hh:Connection::deleteConnectionRTCPInstance", "src/modules/transmitter/Connection.cpp:ConnRTCPInstance::~ConnRTCPInstance", "src/modules/transmitter/H264QueueServerMediaSubsession.cpp:H264QueueServerMediaSubsession::createRTCP", "src/modules/transmitter/SinkManager.cpp:SinkManager::doGetState"]}
{"id": "C101", "title": "Every transmitter has a port of its own", "statement": "A transmitter that is asked for is created exactly if one of the ports 8554, 8556, ..., 8564 is free, and its RTSP server then has the first of these; no two transmitters have the same port, and the port of one that was destroyed can be had again.", "quantifier": "every sequence of transmitters created and destroyed, and every set of ports that other programs have at each time", "why_tests_cant": "Which ports are free depends on everything else on the machine and on the history.", "anchors": ["src/modules/transmitter/SinkManager.cpp:SinkManager::SinkManager", "src/modules/transmitter/SinkManager.cpp:SinkManager::createNew", "src/modules/transmitter/SinkManager.cpp:SinkManager::stop"]}
{"id": "C102", "title": "The announcement of an AAC stream tells how to decode it", "statement": "The description that an RTSP client is given of an AAC stream holds the AudioSpecificConfig of the stream (object type, sampling frequency, channels), every request for it is answered, and making it stays within the memory set aside for it.", "quantifier": "every sequence of requests, every frames that come meanwhile, and everything the memory of a new parser may hold", "why_tests_cant": "What is announced before the first frame is what happened to be in memory; bytes written past an array show only with some layouts.", "anchors": ["src/modules/transmitter/ADTSQueueServerMediaSubsession.cpp:ADTSQueueServerMediaSubsession::getAuxSDPLine", "src/modules/transmitter/ADTSQueueServerMediaSubsession.cpp:ADTSQueueServerMediaSubsession::checkForAuxSDPLine1", "src/modules/transmitter/ADTSStreamParser.cpp:ADTSStreamParser::updateConfigString", "src/modules/transmitter/ADTSStreamParser.hh:ADTSStreamParser::getConfigString", "src/modules/transmitter/CustomMPEG4GenericRTPSink.cpp:CustomMPEG4GenericRTPSink::auxSDPLine"]}
{"id": "C103", "title": "Stopping the pool ends, and nothing runs afterwards", "statement": "When the pool of workers is stopped, every worker finishes the round it is in and ends, and the call returns; at most one more round is begun from the call on, and none after its return; workers that wait for something to do are woken by it at once.", "quantifier": "every number of workers, every interleaving of their steps with the stopping thread and with threads that add and remove filters", "why_tests_cant": "The flag is set and the notification given without the lock, so what happens depends on where each worker is at that moment.", "anchors": ["src/WorkersPool.cpp:WorkersPool::WorkersPool", "src/WorkersPool.cpp:WorkersPool::stop", "src/WorkersPool.cpp:WorkersPool::addTask", "src/WorkersPool.cpp:WorkersPool::removeTask"]}
{"id": "C104", "title": "The demuxer looks after the memory of its packets", "statement": "While a source is played, whatever the packets, the result of converting them and the connections, the demuxer uses and frees only memory that is there, each block once; it holds no memory but that of the packet being handed out, which goes with the packet's last unit, or at once if its output is not connected; nothing is left when the source is changed or the demuxer destroyed.", "quantifier": "every sequence of rounds and changes of source, every answer of the reading and converting library, every pattern of connections", "why_tests_cant": "Whether the buffer is the packet's own or a converted one, and when the packet is given up, depends on the whole history of answers and connections.", "anchors": ["src/modules/headDemuxer/HeadDemuxerLibav.cpp:HeadDemuxerLibav::doProcessFrame", "src/modules/headDemuxer/HeadDemuxerLibav.cpp:HeadDemuxerLibav::reset", "src/modules/headDemuxer/HeadDemuxerLibav.cpp:HeadDemuxerLibav::setURI"]}
{"id": "C105", "title": "Every shared memory filter has a segment of its own, which goes with it", "statement": "A shared memory filter that is created has a new segment, which exists under the identifier it tells as long as the filter lives and is no other filter's; a filter for a key under which there is a segment already, whoever made it, is refused without changing anything. Destroying a filter frees its key and removes its segment, which stays only for processes still attached, and touches no other; once all filters are destroyed nothing is left.", "quantifier": "every history of creations and destructions with any keys, codecs and answers of the system, interleaved with other processes that create, attach, detach and remove", "why_tests_cant": "Segments are named by keys that outlive the process and are shared with unknown others; failures of the system are rare.", "anchors": ["src/modules/sharedMemory/SharedMemory.cpp:SharedMemory::SharedMemory", "src/modules/sharedMemory/SharedMemory.cpp:SharedMemory::createNew", "src/modules/sharedMemory/SharedMemory.cpp:SharedMemory::~SharedMemory"]}
{"id": "C106", "title": "The shared memory filter passes the video on", "statement": "What comes out of a shared memory filter is what goes into it, every frame once, in order and unchanged, whatever the processes that read the memory do. Its output can be connected at any time, to a queue that fits the stream, and what is not video is refused.", "quantifier": "every history of connecting and disconnecting both sides, of streams that begin, change and end, and of frames", "why_tests_cant": "The queue after the filter is made from what the filter remembers of the stream before it; what it remembers depends on the order of all connections so far.", "anchors": ["src/modules/sharedMemory/SharedMemory.cpp:SharedMemory::allocQueue", "src/modules/sharedMemory/SharedMemory.cpp:SharedMemory::specificReaderConfig", "src/modules/sharedMemory/SharedMemory.cpp:SharedMemory::copyOrgToDstFrame", "src/AVFramedQueue.cpp:VideoFrameQueue::setup"]}
{"id": "C107", "title": "An output of the receiver is made for the stream that arrives there", "statement": "An output of a receiving port that is connected has a queue for the stream that arrives at the port: its medium, codec, rate and channels. It is refused only if nothing is received there or if there is no queue for such streams.", "quantifier": "every history of sessions with any streams and ports, of their removal, and of connecting and disconnecting outputs", "why_tests_cant": "Ports are used again by later sessions, after any number of others.", "anchors": ["src/modules/receiver/SourceManager.cpp:SourceManager::allocQueue", "src/modules/receiver/SourceManager.cpp:SourceManager::specificWriterDelete", "src/modules/receiver/SourceManager.cpp:SourceManager::removeSession"]}
{"id": "C108", "title": "The configuration data a decoder was opened with stay while it uses them", "statement": "The description of a stream tells the configuration data it was given last, whole, and nothing else is kept. A decoder that was configured from a stream reads the data it was given then, with the room after them its library asks for, whatever the producer of the stream does meanwhile.", "quantifier": "every history of describing a stream, giving it data, freeing its description, making its queue, configuring the decoder and reading", "why_tests_cant": "Freed memory often still holds the old bytes, and the moment a producer is configured again is arbitrary.", "anchors": ["src/StreamInfo.hh:setExtraData", "src/modules/videoEncoder/VideoEncoderX264.cpp:encodeHeadersFrame", "src/modules/headDemuxer/HeadDemuxerLibav.cpp:reset", "src/modules/videoDecoder/VideoDecoderLibav.cpp:inputConfig"]}
