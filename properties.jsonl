{"id": "C01", "title": "Every frame belongs to exactly one writer process", "statement": "When the same acquisition is configured on N writer processes with ranks 0..N-1 and the same frames-per-block, each frame number is accepted for writing by exactly one of them: the one whose rank is the block number modulo N. No frame is accepted by two processes or refused by all.", "quantifier": "all frame numbers, all numbers of processes N >= 1, all frames-per-block >= 1", "why_tests_cant": "needs every (frame, N, block size) triple; a test samples a few small ones", "anchors": ["cpp/frameProcessor/src/Acquisition.cpp:Acquisition::process_frame (119-127)"]}
{"id": "C02", "title": "Frame placement is a bijection", "statement": "Frame number -> (file index, offset inside the file) never sends two frames to the same place, and every place in every file is the place of exactly one frame number, across all the ranks together. Files with index i belong to rank i mod N only.", "quantifier": "all frame numbers, all N, ranks < N, frames per block >= 1 and blocks per file >= 1 (and the single-file case blocks per file = 0)", "why_tests_cant": "injectivity and surjectivity over unbounded frame numbers", "anchors": ["cpp/frameProcessor/src/Acquisition.cpp:Acquisition::get_frame_offset_in_file", "cpp/frameProcessor/src/Acquisition.cpp:Acquisition::get_file_index"]}
{"id": "C03", "title": "Offsets stay inside the file and keep frame order", "statement": "With B blocks per file of F frames each, the in-file offset of a frame is always less than B*F, and of two frames that go to the same file the later frame has the larger offset; frames of one process go to non-decreasing files.", "quantifier": "all pairs of frame numbers and all process/block/file geometries", "why_tests_cant": "monotonicity over all pairs", "anchors": ["cpp/frameProcessor/src/Acquisition.cpp:Acquisition::get_frame_offset_in_file", "cpp/frameProcessor/src/Acquisition.cpp:Acquisition::get_file_index"]}
{"id": "C04", "title": "Each process is told to expect exactly the frames it will get", "statement": "For an acquisition of T frames, the per-process expected frame count computed for rank r equals the number of frame numbers in 0..T-1 that rank r accepts; the counts of all ranks add up to T.", "quantifier": "all T, N, r < N, frames per block", "why_tests_cant": "counting argument over all totals and ranks", "anchors": ["cpp/frameProcessor/src/FileWriterPlugin.cpp:FileWriterPlugin::calc_num_frames", "cpp/frameProcessor/src/Acquisition.cpp:Acquisition::process_frame"]}
{"id": "C05", "title": "Different files of an acquisition get different names", "statement": "Two different file indexes of one acquisition never produce the same file name, so no file of the acquisition truncates another one. A name consists of the file name (or else the acquisition id), the postfix, the file number in six digits counted from the starting number, and the extension with its dot.", "quantifier": "all pairs of file indexes and all name settings", "why_tests_cant": "must hold for every index pair; the formatting buffer only fails past 10^6", "anchors": ["cpp/frameProcessor/src/Acquisition.cpp:Acquisition::generate_filename"]}
{"id": "C06", "title": "Frame offset adjustment is exact", "statement": "The frame number used for placement is the frame's number plus its adjustment whenever that sum is non-negative; a frame whose sum is negative is refused.", "quantifier": "all 64 bit frame numbers and adjustments", "why_tests_cant": "boundary is at 2^31 and 2^64, beyond any practical run", "anchors": ["cpp/frameProcessor/src/Acquisition.cpp:Acquisition::adjust_frame_offset"]}
{"id": "C07", "title": "A frame is admitted exactly when it matches the dataset definition", "statement": "A frame is accepted for a dataset if and only if the dataset is defined, the frame's compression and data type are known and equal to the dataset's, and its dimensions are equal; otherwise it is reported as invalid and nothing is written.", "quantifier": "all frames and all dataset definition tables", "why_tests_cant": "all combinations of type, compression and dimension vectors", "anchors": ["cpp/frameProcessor/src/Acquisition.cpp:Acquisition::check_frame_valid"]}
{"id": "C08", "title": "Written frames are readable at their place and are never disturbed", "statement": "After any sequence of frames offered to an acquisition, every frame that was reported as written is stored in the file and at the offset given by the placement map, with its own content, unless a later frame with the same number and dataset replaced it; frames that were refused changed no stored data.", "quantifier": "all sequences of frames in any order, with duplicates, gaps and refusals", "why_tests_cant": "quantifies over all arrival histories", "anchors": ["cpp/frameProcessor/src/Acquisition.cpp:Acquisition::process_frame", "cpp/frameProcessor/src/Acquisition.cpp:Acquisition::get_file", "cpp/frameProcessor/src/HDF5File.cpp:HDF5File::write_frame"]}
{"id": "C09", "title": "Files are created once, in order, without holes, and at most two are open", "statement": "During an acquisition the indexes of created files are rank, rank+N, rank+2N, ... in that order, each created once; at any time only the two most recent ones are open, every earlier one has been closed, and after stop all are closed.", "quantifier": "all frame arrival histories and stop points", "why_tests_cant": "history property", "anchors": ["cpp/frameProcessor/src/Acquisition.cpp:Acquisition::create_file", "cpp/frameProcessor/src/Acquisition.cpp:Acquisition::close_file", "cpp/frameProcessor/src/Acquisition.cpp:Acquisition::get_file", "cpp/frameProcessor/src/Acquisition.cpp:Acquisition::stop_acquisition"]}
{"id": "C10", "title": "Frames too late for the open files are refused", "statement": "A frame that belongs to a file older than the two open ones is refused with an error and changes no file, counter or open file.", "quantifier": "all histories and late frames", "why_tests_cant": "history property", "anchors": ["cpp/frameProcessor/src/Acquisition.cpp:Acquisition::get_file"]}
{"id": "C11", "title": "The frames-written count never goes down and is exact at the end", "statement": "The published number of frames written never decreases during an acquisition, never exceeds the highest placement reached, and when all expected frames were written once (any order inside the two-file window) it equals the expected number.", "quantifier": "all arrival histories", "why_tests_cant": "history property", "anchors": ["cpp/frameProcessor/src/Acquisition.cpp:Acquisition::process_frame (171-190)"]}
{"id": "C12", "title": "Completion is reported if and only if all expected frames arrived", "statement": "With no duplicate frames, an acquisition reports complete exactly at the frame that makes the number of written frames equal the expected count while the last slot is written, and reports complete-with-missing-frames exactly when the last slot is written but some frames have not arrived. It never reports completion earlier.", "quantifier": "all arrival orders of distinct frames", "why_tests_cant": "all permutations", "anchors": ["cpp/frameProcessor/src/Acquisition.cpp:Acquisition::process_frame (171-203)"]}
{"id": "C13", "title": "Dataset extents cover what was written", "statement": "For an unlimited dataset the extent after any writes is exactly one more than the largest offset written (times the outer chunk); it never shrinks. For a fixed dataset, frames beyond the dataset size are refused.", "quantifier": "all write sequences", "why_tests_cant": "history property", "anchors": ["cpp/frameProcessor/src/HDF5File.cpp:HDF5File::write_frame", "cpp/frameProcessor/src/HDF5File.cpp:HDF5File::extend_dataset", "cpp/frameProcessor/src/HDF5File.cpp:HDF5File::create_dataset", "cpp/frameProcessor/src/Acquisition.cpp:Acquisition::create_file"]}
{"id": "C14", "title": "Process geometry cannot change while writing", "statement": "While the file writer is writing, no configuration message changes the number of processes, rank, frames per block or blocks per file; the request is refused unless it repeats the current values. Frames per block is never 0.", "quantifier": "all sequences of configuration messages and frames", "why_tests_cant": "history property over all message sequences", "anchors": ["cpp/frameProcessor/src/FileWriterPlugin.cpp:FileWriterPlugin::configure_process"]}
{"id": "C15", "title": "Frames are written to the acquisition they name", "statement": "A frame that names an acquisition is only ever written by the acquisition of that name: it is either the current one, or the configured next one which is then started (closing the current one first), or the frame is not written and an error is raised. Frames without a name go to the current acquisition.", "quantifier": "all sequences of configuration changes, frames, start and stop commands", "why_tests_cant": "history property", "anchors": ["cpp/frameProcessor/src/FileWriterPlugin.cpp:FileWriterPlugin::frame_in_acquisition", "cpp/frameProcessor/src/FileWriterPlugin.cpp:FileWriterPlugin::start_writing", "cpp/frameProcessor/src/FileWriterPlugin.cpp:FileWriterPlugin::stop_writing"]}
{"id": "C16", "title": "Stopping restarts only a different prepared acquisition", "statement": "Stopping the current acquisition closes it and starts the next one only if one has been configured with a file name or id and it does not name the same output as the one just finished; so a finished acquisition is never reopened and its files are never truncated by stopping.", "quantifier": "all plugin states", "why_tests_cant": "all combinations of current/next settings and histories", "anchors": ["cpp/frameProcessor/src/FileWriterPlugin.cpp:FileWriterPlugin::stop_acquisition", "cpp/frameProcessor/src/FileWriterPlugin.cpp:FileWriterPlugin::start_writing"]}
{"id": "C17", "title": "The file writer forwards every frame once", "statement": "A frame given to the file writer that is for the acquisition being written (or for the named next one, which is then started) is passed to the next plugins exactly once and in the order given, whether or not it was valid or could be written; it is held back only if processing it throws. Frames for no acquisition are dropped. An end-of-acquisition frame is passed on exactly once.", "quantifier": "all frames and states", "why_tests_cant": "all histories", "anchors": ["cpp/frameProcessor/src/FileWriterPlugin.cpp:FileWriterPlugin::process_frame"]}
{"id": "C18", "title": "Close-file timeout fires only after inactivity", "statement": "The close timeout stops an acquisition only if it was armed for at least its period with no new frame processed since; a frame processed in time re-arms it, and a timeout never stops an acquisition that is not writing.", "quantifier": "all interleavings of frames, timer wake-ups and stops", "why_tests_cant": "schedule property", "anchors": ["cpp/frameProcessor/src/FileWriterPlugin.cpp:FileWriterPlugin::start_close_file_timeout", "cpp/frameProcessor/src/FileWriterPlugin.cpp:FileWriterPlugin::run_close_file_timeout"]}
{"id": "C19", "title": "Data block pool conserves blocks", "statement": "For every pool: total = free + used blocks, reported memory = sum of block sizes, every block ever allocated is either in the free list or in use but not both, and no allocated block is lost.", "quantifier": "all sequences of allocate, take and release for blocks in use", "why_tests_cant": "history property", "anchors": ["cpp/frameProcessor/src/DataBlockPool.cpp"]}
{"id": "C20", "title": "No data block has two owners", "statement": "A block handed out by take is not handed out again until it has been released, for any number of frame objects created, copied, assigned and destroyed.", "quantifier": "all sequences of frame life-cycle operations", "why_tests_cant": "history property; corruption appears only after particular copy/destroy orders", "anchors": ["cpp/frameProcessor/src/DataBlockPool.cpp:DataBlockPool::internal_release", "cpp/frameProcessor/src/DataBlockFrame.cpp"]}
{"id": "C21", "title": "Work queue is FIFO and loses nothing", "statement": "Items leave a work queue in exactly the order they were added, each once; for bounded adds the queue never holds more than its limit; a remover never receives an item that was not added.", "quantifier": "all interleavings of any number of producers and consumers", "why_tests_cant": "schedule property", "anchors": ["cpp/frameProcessor/include/WorkQueue.h"]}
{"id": "C22", "title": "Work queue cannot deadlock", "statement": "If a consumer keeps removing, producers blocked on a full queue and the consumer blocked on an empty queue are always eventually woken: no reachable state has all threads asleep while the queue is non-empty or non-full.", "quantifier": "all interleavings, all numbers of producers", "why_tests_cant": "deadlock depends on a rare schedule with many producers", "anchors": ["cpp/frameProcessor/include/WorkQueue.h:WorkQueue::add", "cpp/frameProcessor/include/WorkQueue.h:WorkQueue::remove"]}
{"id": "C23", "title": "Plugin graph delivers each frame once to each connected plugin", "statement": "After any sequence of connect and disconnect calls, a pushed frame is delivered exactly once to each plugin whose last call was a connect and to no other; a plugin is never registered as both blocking and non-blocking; an invalid frame is delivered to none.", "quantifier": "all registration histories", "why_tests_cant": "history property", "anchors": ["cpp/frameProcessor/src/FrameProcessorPlugin.cpp:register_callback,remove_callback,push"]}
{"id": "C24", "title": "Frames queued to a worker are processed in order until it is stopped", "statement": "A plugin worker processes queued frames in arrival order, each once; frames processed are a prefix of the frames queued, and when it is not stopped every queued frame is eventually processed. Frames still queued when the worker is stopped should be processed too.", "quantifier": "all schedules of queueing and stopping", "why_tests_cant": "schedule property", "anchors": ["cpp/frameProcessor/src/IFrameCallback.cpp"]}
{"id": "C25", "title": "Packets may arrive in any order", "statement": "When all packets of a frame arrive exactly once, in any order and interleaved with other frames' packets, the receiver hands over that frame once, marked complete, with every packet's payload at its place.", "quantifier": "all packet permutations and interleavings", "why_tests_cant": "factorial number of orders", "anchors": ["cpp/frameReceiver/src/DummyUDPFrameDecoder.cpp:process_packet_header,process_packet"]}
{"id": "C26", "title": "A frame marked complete has all its packets", "statement": "Whenever the receiver hands over a frame in the complete state, every one of its packets has been received.", "quantifier": "all packet histories including duplicates and late packets", "why_tests_cant": "needs particular duplicate patterns", "anchors": ["cpp/frameReceiver/src/DummyUDPFrameDecoder.cpp:process_packet"]}
{"id": "C27", "title": "Packet writes stay inside the frame buffer", "statement": "For every packet header that can arrive from the network, the payload and bookkeeping of the packet are written inside the buffer of that frame.", "quantifier": "all 64 bit packet headers", "why_tests_cant": "malicious or corrupted values", "anchors": ["cpp/frameReceiver/src/DummyUDPFrameDecoder.cpp:get_next_payload_buffer,process_packet_header"]}
{"id": "C28", "title": "Frame buffers are owned by one side at a time", "statement": "Every shared frame buffer is at each time in exactly one place: empty in the decoder, being filled, handed over (ready), or on its way back; it is never handed over twice without being released in between and never lost.", "quantifier": "all histories of packets, timeouts and releases", "why_tests_cant": "history property", "anchors": ["cpp/frameReceiver/src/DummyUDPFrameDecoder.cpp", "cpp/frameReceiver/src/FrameReceiverRxThread.cpp", "cpp/frameProcessor/src/SharedMemoryController.cpp"]}
{"id": "C29", "title": "Lost packet accounting is exact", "statement": "The packets-lost statistics equal the number of packets missing from the frames that were handed over as timed out; a frame handed over as timed out states how many packets it has; dropped frames are counted once each.", "quantifier": "all histories", "why_tests_cant": "history property", "anchors": ["cpp/frameReceiver/src/DummyUDPFrameDecoder.cpp:monitor_buffers"]}
{"id": "C30", "title": "Simulator, receiver and processor reproduce the image", "statement": "An image split into packets by the simulator, delivered in any order with any subset of packets lost, and turned back into an image by the receiver and the dummy processor is the original image with exactly the lost packets' regions zeroed.", "quantifier": "all images, packet sizes, arrival orders and loss patterns", "why_tests_cant": "exponentially many loss patterns", "anchors": ["cpp/frameSimulator/src/DummyUDPFrameSimulatorPlugin.cpp:create_frames", "cpp/frameReceiver/src/DummyUDPFrameDecoder.cpp", "cpp/frameProcessor/src/DummyUDPProcessPlugin.cpp:process_lost_packets"]}
{"id": "C31", "title": "Shared buffers do not overlap", "statement": "For any region and buffer size, each buffer number below the buffer count has an address range inside the shared region, after the header, and the ranges of different buffers are disjoint; other buffer numbers are refused.", "quantifier": "all sizes and buffer numbers", "why_tests_cant": "all size combinations", "anchors": ["cpp/common/src/SharedBufferManager.cpp"]}
{"id": "C32", "title": "Reactor timers fire the requested number of times and never early", "statement": "A timer registered with delay d and n repeats fires exactly n times (n=0: forever) if the reactor runs long enough, the k-th time not before registration + k*d, and the poll timeout never sleeps past the earliest due timer.", "quantifier": "all sets of timers and all clock advances", "why_tests_cant": "schedule property", "anchors": ["cpp/common/src/IpcReactor.cpp"]}
{"id": "C33", "title": "Message parameters read back as set", "statement": "After setting a parameter by its slash-separated path, reading that path gives the value set, reading any path that does not run through it is unaffected, and has_param agrees with get_param.", "quantifier": "all parameter trees, paths and values", "why_tests_cant": "all trees and paths", "anchors": ["cpp/common/include/IpcMessage.h:set_param,get_param", "cpp/common/src/IpcMessage.cpp:has_param"]}
{"id": "C34", "title": "Updating parameters merges leaf by leaf", "statement": "Updating a message's parameters from another parameter tree gives every leaf of the update its new value and leaves every other leaf as it was; updating twice with the same tree is the same as once.", "quantifier": "all pairs of parameter trees", "why_tests_cant": "all trees", "anchors": ["cpp/common/src/IpcMessage.cpp:update"]}
{"id": "C35", "title": "Message type and value names round-trip", "statement": "Encoding then decoding the type and value of a message gives back the same type and value; unknown names decode to the illegal value; a strict message accepts exactly the well formed ones.", "quantifier": "all type/value names", "why_tests_cant": "all strings", "anchors": ["cpp/common/src/IpcMessage.cpp"]}
{"id": "C36", "title": "Gap filling moves each pixel once", "statement": "The gap filled image contains every pixel of the source image exactly once, at its chip position shifted by the gaps before it, all other pixels are zero, and no read or write leaves the images. Accepted geometries are exactly the consistent ones.", "quantifier": "all grids, chip sizes, gap vectors and images", "why_tests_cant": "all geometries", "anchors": ["cpp/frameProcessor/src/GapFillPlugin.cpp"]}
{"id": "C37", "title": "Live view sends every n-th frame per dataset and never disturbs the stream", "statement": "With frame frequency n, a live view sends exactly the frames number 0, n, 2n, ... of each configured dataset (counting only frames that pass the dataset and tag filters); it always forwards every frame unchanged.", "quantifier": "all frame sequences and configurations", "why_tests_cant": "history property", "anchors": ["cpp/frameProcessor/src/LiveViewPlugin.cpp:process_frame"]}
{"id": "C38", "title": "Sum is the pixel sum modulo 2^64", "statement": "The sum parameter attached to a frame is the sum of its pixel values modulo 2^64, for each integer pixel type; other types give no sum; frame data unchanged.", "quantifier": "all images", "why_tests_cant": "all images", "anchors": ["cpp/frameProcessor/src/SumPlugin.cpp"]}
{"id": "C39", "title": "Parameter and offset adjustments are applied to every frame exactly once", "statement": "Each configured parameter adjustment sets its parameter on each frame to (input parameter, or frame number if none) plus the adjustment; a frame without the input parameter is forwarded without that parameter and an error is raised. The offset adjustment is added once to the frame offset.", "quantifier": "all frames and adjustment tables", "why_tests_cant": "all tables; order dependence", "anchors": ["cpp/frameProcessor/src/ParameterAdjustmentPlugin.cpp", "cpp/frameProcessor/src/OffsetAdjustmentPlugin.cpp"]}
{"id": "C40", "title": "Compression settings are fixed during an acquisition", "statement": "All frames of one acquisition are compressed with the same settings, those commanded when its first frame arrived; settings are always within the legal ranges.", "quantifier": "all histories of configure and frames", "why_tests_cant": "history property", "anchors": ["cpp/frameProcessor/src/BloscPlugin.cpp"]}
{"id": "C41", "title": "Kafka messages can be parsed back", "statement": "Every message produced carries a length field, a header of that length and exactly the frame's bytes; a consumer that follows the length field recovers the header and the data.", "quantifier": "all headers and frame contents", "why_tests_cant": "length boundary", "anchors": ["cpp/frameProcessor/src/KafkaProducerPlugin.cpp:create_message"]}
{"id": "C42", "title": "Kafka counters account for every frame", "statement": "Every frame of the configured dataset is counted exactly once as sent or lost.", "quantifier": "all histories of frames and producer failures", "why_tests_cant": "history property", "anchors": ["cpp/frameProcessor/src/KafkaProducerPlugin.cpp:enqueue_frame"]}
{"id": "C43", "title": "Errors and warnings are reported once", "statement": "The reported error list contains each distinct error message raised since the last clear exactly once in order of first occurrence; warnings likewise; clear empties both.", "quantifier": "all histories", "why_tests_cant": "history property", "anchors": ["cpp/frameProcessor/src/FrameProcessorPlugin.cpp:set_error,set_warning,clear_errors"]}
{"id": "C44", "title": "Each control request gets one reply for the same client and id", "statement": "The frame receiver answers every control message, well formed or not, with exactly one reply to the sender, carrying the request id when it could be parsed, acknowledging exactly the requests that succeeded.", "quantifier": "all request sequences", "why_tests_cant": "all inputs", "anchors": ["cpp/frameReceiver/src/FrameReceiverController.cpp:handle_ctrl_channel", "cpp/frameProcessor/src/FrameProcessorController.cpp:handleCtrlChannel"]}
{"id": "C45", "title": "Receiver reports configured only when every part is", "statement": "The frame receiver reports configuration complete only when IPC channels (control, rx, ready, release), decoder, buffer manager and rx thread are all configured, and a configuration message only rebuilds the parts it affects. An acknowledged configuration that names a decoder has loaded it, made buffers and a receiver thread, and there is at most one receiver thread at any time.", "quantifier": "all configuration sequences", "why_tests_cant": "history property", "anchors": ["cpp/frameReceiver/src/FrameReceiverController.cpp:configure,configure_ipc_channels,configure_frame_decoder"]}
{"id": "C46", "title": "Type and compression names round-trip", "statement": "Each data type and compression name maps to a code and back to the same name, distinct codes have distinct names, and the element size of each type is the size in bytes of its values.", "quantifier": "all codes and all strings", "why_tests_cant": "all strings", "anchors": ["cpp/frameProcessor/include/FrameProcessorDefinitions.h"]}
{"id": "C47", "title": "Plugin wiring commands build the requested graph", "statement": "After any sequence of load, connect and disconnect commands the processing graph is exactly the one described by the commands; a plugin name is loaded at most once; a connection to a plugin that is not loaded is refused without changing anything.", "quantifier": "all command sequences", "why_tests_cant": "history property", "anchors": ["cpp/frameProcessor/src/FrameProcessorController.cpp:configurePlugin,loadPlugin,connectPlugin,disconnectPlugin"]}
{"id": "C48", "title": "Stored configurations execute as if sent", "statement": "Executing a stored configuration has the same effect as sending its messages in order, and always ends.", "quantifier": "all stored configurations", "why_tests_cant": "self reference", "anchors": ["cpp/frameProcessor/src/FrameProcessorController.cpp:configure"]}
{"id": "C49", "title": "Bound parameters update only when present", "statement": "Updating a parameter container from a JSON document sets exactly the bound parameters present in it, leaves the others alone, and encode followed by update restores every parameter.", "quantifier": "all bindings and documents", "why_tests_cant": "all documents", "anchors": ["cpp/common/src/ParamContainer.cpp"]}
{"id": "C50", "title": "Port lists round-trip", "statement": "The receive port list parsed from text contains exactly the valid port numbers listed, in order, and printing then parsing a port list gives it back.", "quantifier": "all port lists", "why_tests_cant": "all lists", "anchors": ["cpp/frameReceiver/include/FrameReceiverConfig.h:tokenize_port_list,rx_port_list"]}
{"id": "C51", "title": "Process timings summarise the calls", "statement": "After a statistics reset the reported last, maximum and mean processing times of a plugin are the last duration, the largest duration, and a value between the smallest and largest duration of the calls since the reset.", "quantifier": "all sequences of call durations", "why_tests_cant": "tests take the timings they happen to see; the claim is about every sequence, including long calls and statistics read before any reset", "anchors": ["cpp/frameProcessor/src/CallDuration.cpp:update,reset", "cpp/frameProcessor/src/FrameProcessorPlugin.cpp:callback,add_performance_stats"]}
{"id": "C52", "title": "Message equality compares type, value and parameters", "statement": "Two messages compare equal exactly if their types, values and parameters are the same, the members of objects in any order; equality is symmetric, a message equals itself, and id and timestamp do not count.", "quantifier": "all pairs of messages with nested parameters", "why_tests_cant": "tests compare a few messages; the claim is about every nested document and every order of members", "anchors": ["cpp/common/src/IpcMessage.cpp:operator==,operator!="]}
{"id": "C53", "title": "The receiver passes notifications on unchanged and counts them", "statement": "Every frame ready notification of the receiver thread is published exactly as it came and every frame release is sent exactly as it came to the thread that last identified itself, in order; the counters in status count them since the last reset; the receiver stops by itself exactly when the number of frames asked for has been released.", "quantifier": "all sequences of messages on all channels", "why_tests_cant": "the claim is about whole histories with any mix of messages and requests in between", "anchors": ["cpp/frameReceiver/src/FrameReceiverController.cpp:handle_rx_channel,handle_frame_release_channel,reset_statistics,get_status"]}
{"id": "C54", "title": "Text received as a message is read as the JSON grammar says", "statement": "A text is accepted exactly if it is a JSON text (RFC 8259: white space, escapes, surrogate pairs, numbers), and its value is the one the grammar gives, integers from -2^63 to 2^64-1 exactly, other numbers as the nearest double; every other text is refused; what follows a zero byte does not count.", "quantifier": "all texts", "why_tests_cant": "tests parse a few texts; the claim is about every text, accepted or refused", "anchors": ["cpp/common/src/IpcMessage.cpp:IpcMessage(const char*,bool)", "cpp/common/include/rapidjson/reader.h:GenericReader"]}
{"id": "C55", "title": "A message sent as text arrives as the same message", "statement": "The text encode() makes of a message is accepted by the receiver's parser and gives a message with the same type, value, id, time and parameters, whatever the parameters are; encoding that message gives the same text.", "quantifier": "all messages with nested parameters of all kinds, all doubles", "why_tests_cant": "2^64 doubles and unbounded documents; the shortest-digits printer and the parser are separate numerical algorithms", "anchors": ["cpp/common/src/IpcMessage.cpp:encode", "cpp/common/include/rapidjson/writer.h:Writer", "cpp/common/include/rapidjson/internal/dtoa.h:Grisu2", "cpp/common/include/rapidjson/internal/strtod.h:StrtodNormalPrecision"]}
{"id": "C56", "title": "Every request to the frame processor gets one reply that says what is", "statement": "The frame processor answers every legal control message with one reply, sent to the client that asked, with its message value and id; a reply to a request for configuration, status, commands, version, or to execute or reset statistics holds exactly the endpoints, names, errors, timing, versions and commands of the plugins at that moment and what the plugins add in their own part; a message that is no command is refused with its text and changes nothing; requests that read change nothing but what plugins do themselves.", "quantifier": "all states, plugins and messages", "why_tests_cant": "tests ask a fixed set of plugins; the claim is about any plugins, their names, and any order of failures", "anchors": ["cpp/frameProcessor/src/FrameProcessorController.cpp:handleCtrlChannel,provideStatus,provideVersion,requestConfiguration,requestCommands,execute,resetStatistics"]}
{"id": "C57", "title": "Meta data is published whole", "statement": "Each meta message of a plugin is published as one message of two parts: a JSON text with the plugin, the parameter, the type and the header (the JSON value of the header if it is JSON, otherwise the header as a string), and the data unchanged.", "quantifier": "all headers and data", "why_tests_cant": "the header is arbitrary text which is parsed, copied and written again", "anchors": ["cpp/frameProcessor/src/FrameProcessorController.cpp:handleMetaRxChannel"]}
{"id": "C58", "title": "An acknowledged configuration has been applied, and nothing else", "statement": "When the frame processor answers a configure message, every setting named in it has the value given, every plugin named in it has been given its section, the plugin commands (load, connect, disconnect, receiver endpoints) have all been done in this order, and every setting, plugin and connection that the message does not name is as before.", "quantifier": "all states, messages, plugins", "why_tests_cant": "the number of combinations of sections is unbounded; sections interact through the plugins and the connections", "anchors": ["cpp/frameProcessor/src/FrameProcessorController.cpp:configure,configurePlugin,loadPlugin,connectPlugin,setupControlInterface,setupMetaTxInterface,setupFrameReceiverInterface"]}
{"id": "C59", "title": "The frame processor stops after the number of frames asked for", "statement": "With a limit of n frames the main thread is told to exit when the n-th frame (of the master data set, or of any if there is none) has passed the file writer, not before, whatever other frames come in between.", "quantifier": "all sequences of frames, all limits", "why_tests_cant": "the claim is about every length and order of frames", "anchors": ["cpp/frameProcessor/src/FrameProcessorController.cpp:callback,configure"]}
{"id": "C60", "title": "The file writer has the settings it was sent, and reports the settings it has", "statement": "When a configure message to the file writer returns, each setting and data set named in it has the value given (a path only if it can be written to; otherwise the reply is a nack with the reason) and everything else is as before. Well formed messages return. However a message ends, the running acquisition, its files and its process settings are not touched, and while writing a message that asks for other process settings is refused. The configuration it reports, sent to another file writer, gives that one the same settings.", "quantifier": "all messages (any JSON), all states reached by messages, commands, frames and time-outs, all file systems", "why_tests_cant": "the space of messages is unbounded and settings interact with one another and with the state of the acquisition; the round trip is a claim about all configurations", "anchors": ["cpp/frameProcessor/src/FileWriterPlugin.cpp:configure,configure_process,configure_file,configure_dataset,create_new_dataset,requestConfiguration"]}
{"id": "C61", "title": "The file writer's status and commands tell the truth", "statement": "Its status has the counters, path, name and id of the current acquisition under its own name in the reply and changes nothing. The commands it lists are those it does not refuse. After stop_writing it does not write; after start_writing that succeeded it writes with the settings it had, unless no frames are expected or there is no name. Resetting the statistics makes all reported durations zero and changes nothing else.", "quantifier": "all states, all replies, all commands", "why_tests_cant": "counters take all values; every state must be considered", "anchors": ["cpp/frameProcessor/src/FileWriterPlugin.cpp:status,add_file_writing_stats,execute,requestCommands"]}
{"id": "C62", "title": "File writers in a frame processor do what control clients ask and show what they are", "statement": "A client that asks a frame processor for its configuration or status reads under each file writer's name that file writer's configuration or status, and asking changes no file writer. A configure message that is answered gives each file writer the settings of its section and leaves the others as they are; one that loads a file writer gives the new one the settings of its section. Sections that suit are acknowledged; loading an index that is taken is acknowledged and changes nothing; a path that cannot be written to gets a nack and the old path is kept. start_writing, stop_writing and other commands sent to a file writer start, stop, or are refused. Whatever the messages and frames, each file writer in the process is one of those of C14-C17 with its own name. The part of a file writer in the reported configuration, sent to a file writer of another frame processor, is acknowledged and gives it the same settings.", "quantifier": "all messages, all sets of other plugins, all states reached by messages, frames and time-outs, all file systems", "why_tests_cant": "the claim joins all messages of the controller with all configurations and states of all plugins; the round trip goes through two processes", "anchors": ["cpp/frameProcessor/src/FrameProcessorController.cpp:handleCtrlChannel,configure,requestConfiguration,provideStatus,execute,resetStatistics", "cpp/frameProcessor/src/FileWriterPlugin.cpp"]}
{"id": "C63", "title": "Frames received over TCP are the byte stream cut in 1000 byte pieces, whatever the segmentation", "statement": "With DummyTCPFrameDecoder, however the bytes of each connection are split into segments and in whatever order connections are served, the n-th frame read from a connection is bytes 1000n to 1000n+999 of it; the last five frames are in the shared buffers one after the other, and no other byte of the shared memory changes. A connection with a whole frame waiting is served; with less the thread waits for the rest. Frames are announced to the frame processor, kept until released, and a closed or failing connection does not disturb the others (all refuted).", "quantifier": "all byte streams, segmentations, numbers of connections and orders of service", "why_tests_cant": "the ways of splitting a stream in segments and interleaving connections are unbounded", "anchors": ["cpp/frameReceiver/src/FrameReceiverTCPRxThread.cpp:handle_receive_socket", "cpp/frameReceiver/src/DummyTCPFrameDecoder.cpp"]}
{"id": "C64", "title": "What plugins are given does not depend on the threads", "statement": "In a frame processor whose plugins are connected as a tree from the frame receiver, whatever the order in which the threads run, each plugin is called with exactly the frames, in the order, that its predecessors make of the input when run one after the other, end-of-acquisition frames included; each plugin's state is the one after these calls; no two threads are in one plugin; the limited queues never stop the flow, every execution ends, and at the end all frames have gone through. (A frame that several plugins are given must not be changed by them.) The same for plugins with two inputs, branches that change frames, and circles (refuted).", "quantifier": "all trees of blocking and queued connections, all deterministic plugins, all inputs, all interleavings of threads", "why_tests_cant": "the number of interleavings grows without bound with frames and plugins; tests see the few that the machine happens to produce", "anchors": ["cpp/frameProcessor/src/FrameProcessorPlugin.cpp:callback,push", "cpp/frameProcessor/src/IFrameCallback.cpp:workerTask", "cpp/frameProcessor/include/WorkQueue.h", "cpp/frameProcessor/src/SharedMemoryController.cpp:handleRxChannel,injectEOA"]}
{"id": "C65", "title": "The simulator replays what was asked for, frame by frame over the ports", "statement": "Replaying sends the asked number of frames, in a circle over the frames stored, each without exactly the packets listed in --drop-packets or left out by chance, in order, each frame as a whole to one of the listed ports, the frames to the ports in turn; the counters reported are those of what was sent; packets captured from a run are stored as the frames of that run; -1 sends all frames. (Refuted in part: -1, single frames, dropped frames, packet-gap 0, counters, shortened captures.)", "quantifier": "all options, all stored frames, all choices of dropped packets, all results of sendto, all captures", "why_tests_cant": "the combinations of ports, drops and stored frames are unbounded, and overflow of the counters needs gigabytes of traffic", "anchors": ["cpp/frameSimulator/src/FrameSimulatorPluginUDP.cpp:setup,prepare_packets,replay_frames,send_packet", "cpp/frameSimulator/src/FrameSimulatorOption.cpp", "cpp/frameSimulator/include/FrameSimulatorOptions.h"]}
{"id": "C66", "title": "What the simulator sends is what is in the files", "statement": "The dummy detector's images, sent as packets to the receivers in turn, received in any order, assembled in shared buffers, processed and written by one process per receiver, are found in the files of process k mod P: image k at its row, with the simulated pixels, no error reported and every acquisition ended by itself. With lost packets the frames handed over are found with exactly the regions of the lost packets zeroed, and acquisitions end by themselves exactly when no frame is missing. (Refuted in part: frames that come two files late are refused; frames of other data sets that come after the last one of the master are lost.)", "quantifier": "all image sizes, packet sizes, numbers of frames, receivers and processes, blocks per file, orders of arrival and interleavings of receiver, processor and return of buffers", "why_tests_cant": "it joins five components whose pieces are tested apart; the orders in which packets arrive and threads run are unbounded", "anchors": ["cpp/frameSimulator/src/DummyUDPFrameSimulatorPlugin.cpp:create_frames", "cpp/frameSimulator/src/FrameSimulatorPluginUDP.cpp:replay_frames", "cpp/frameReceiver/src/DummyUDPFrameDecoder.cpp", "cpp/frameProcessor/src/SharedMemoryController.cpp", "cpp/frameProcessor/src/DummyUDPProcessPlugin.cpp:process_frame", "cpp/frameProcessor/src/FileWriterPlugin.cpp:process_frame", "cpp/frameProcessor/src/Acquisition.cpp:process_frame"]}
{"id": "C67", "title": "Plugins are configured as told and report what they have", "statement": "A configuration accepted by a plugin (offset, parameter adjustment, live view, gap fill, compression, Kafka, dummy UDP processing) sets exactly what it names, within the documented limits, and compression settings that are changed are told in the reply. Well typed configurations are accepted. requestConfiguration and status put exactly the settings and counters under the plugin's name, without changing the plugin or the rest of the reply; numbers stay within their types over the life of a plugin. A reported configuration can be given to another plugin of the kind, which then has the same settings and its own counters. Resetting zeroes the counters and keeps the settings; only supported commands are accepted. (Refuted in part: reports that are incomplete or refused, refused messages applied in part, a short grid size, an unsupported compressor.)", "quantifier": "all messages, replies, plugin names and plugin states reachable by any sequence of configurations, frames, status requests and resets", "why_tests_cant": "the settings, their order in messages and the previous states are unbounded; the tests only set a few values", "anchors": ["cpp/frameProcessor/src/BloscPlugin.cpp:configure", "cpp/frameProcessor/src/BloscPlugin.cpp:requestConfiguration", "cpp/frameProcessor/src/BloscPlugin.cpp:status", "cpp/frameProcessor/src/KafkaProducerPlugin.cpp:requestConfiguration", "cpp/frameProcessor/src/KafkaProducerPlugin.cpp:status", "cpp/frameProcessor/src/LiveViewPlugin.cpp:requestConfiguration", "cpp/frameProcessor/src/GapFillPlugin.cpp:configure", "cpp/frameProcessor/src/ParameterAdjustmentPlugin.cpp:requestConfiguration", "cpp/frameProcessor/src/OffsetAdjustmentPlugin.cpp:configure", "cpp/frameProcessor/src/DummyUDPProcessPlugin.cpp:configure", "cpp/frameProcessor/src/FrameProcessorPlugin.cpp:execute"]}
{"id": "C68", "title": "A frame processor with the shipped plugins answers, reports, and passes its configuration on", "statement": "With plugins of the distribution (file writer and the eight others), a request for the configuration or the status is answered to its sender, with the settings, status and times of each plugin under its name and no plugin changed (but for Kafka's delivery reports). A message that is answered gave each plugin exactly its section; one with well typed sections is acknowledged; a plugin that is loaded is as its constructor makes it with its section applied. Commands that are answered are among those listed; statistics are reset and this is acknowledged, settings stay. Over the whole life of the frame processor plugins stay in the states of C14-C17 and C67 with their names. The reported configuration sent to another frame processor with plugins of the same names and kinds is acknowledged and gives all of them the settings. (Refuted: messages with one refused section or command are carried out in part without a reply; warnings of two compression plugins overwrite each other.)", "quantifier": "all sets of plugins and names, messages, frames and states reachable; all environments (libraries, file systems)", "why_tests_cant": "the combinations of plugins, names, settings and orders of messages are unbounded; the unit tests configure single plugins directly", "anchors": ["cpp/frameProcessor/src/FrameProcessorController.cpp:configure", "cpp/frameProcessor/src/FrameProcessorController.cpp:requestConfiguration", "cpp/frameProcessor/src/FrameProcessorController.cpp:provideStatus", "cpp/frameProcessor/src/FrameProcessorController.cpp:execute", "cpp/frameProcessor/src/FrameProcessorController.cpp:resetStatistics", "cpp/frameProcessor/src/FrameProcessorController.cpp:handleCtrlChannel", "cpp/frameProcessor/src/BloscPlugin.cpp:configure", "cpp/frameProcessor/src/FrameProcessorPlugin.cpp:execute"]}
{"id": "C69", "title": "A configuration file does what a client would do with its messages", "statement": "At the start of the frame processor and of the frame receiver the messages of a configuration file have the effect of the same messages sent by a client one after the other, up to the first one that is not understood; the program then serves requests iff all were understood; nobody gets a reply; a file that is empty or not JSON ends the program. The control endpoint of the command line is where clients reach the program. The line given with a syntax error is the line of the error. (Refuted: a single object in the file of the frame processor is ignored; values of the wrong type end the program; the frame receiver runs unreachable when its endpoint is taken, and without telling when it refused messages; the excerpt shown with the error.)", "quantifier": "all files, environments, states, numbers of messages and positions", "why_tests_cant": "the files and the states of the controllers are unbounded; the unit tests do not start the applications", "anchors": ["cpp/frameProcessor/src/FrameProcessorApp.cpp:run", "cpp/frameProcessor/src/FrameProcessorApp.cpp:configure_controller", "cpp/frameReceiver/src/FrameReceiverApp.cpp:run", "cpp/common/include/stringparse.h:extract_line_no", "cpp/common/include/stringparse.h:extract_substr_at_pos"]}
{"id": "C70", "title": "The frame processor maps the receiver's shared memory and gives every buffer back once", "statement": "The controller of the shared memory asks for its name once, a second after the connection, unless it was told; the receiver answers with the name, the processor maps it, and its status says configured iff this has happened since the connection was made. Each notification about a buffer then makes one frame with that buffer, number, address and size, handed once to everyone registered; when its last pointer goes, and not before, one release with its buffer is sent on the channel of its controller, and the receiver thread takes that buffer back: frames made are those in use and those given back, none twice. Notifications before the name came in and other texts change nothing. Careful use has no undefined behaviour. (Refuted without care: name repeated or connection replaced while frames are in use, connection replaced within the second, failed second connect, message in the round of the replacement; a wrong name or buffer ends the process; early notifications lose their buffer.)", "quantifier": "all runs, texts, clocks, numbers of controllers, plugins, frames and references", "why_tests_cant": "lifetimes and orders of messages, timers and replacements are unbounded; the unit tests do not connect the two programs", "anchors": ["cpp/frameProcessor/src/SharedMemoryController.cpp:handleRxChannel", "cpp/frameProcessor/src/SharedMemoryController.cpp:requestSharedBufferConfig", "cpp/frameProcessor/src/SharedMemoryController.cpp:setSharedBufferManager", "cpp/frameProcessor/src/SharedBufferFrame.cpp:~SharedBufferFrame", "cpp/frameProcessor/src/FrameProcessorController.cpp:setupFrameReceiverInterface", "cpp/frameReceiver/src/FrameReceiverController.cpp:notify_buffer_config", "cpp/frameReceiver/src/FrameReceiverRxThread.cpp:frame_ready"]}
{"id": "C71", "title": "The watchdog reports calls into HDF5 that take too long, and no others", "statement": "A report names a call that is in progress, was started with a timeout other than 0 and has lasted that long in whole ms of the clock; there is at most one for a call. The warnings shown are the texts of the reports since they were last cleared. With a thread that is at most e ms late, a call that is neither finished nor reported is younger than its timeout + 1 + 3e ms; the thread works until the destructor is called and the destructor can return 2 + 4e ms later. finish_timer returns the time since start_timer in whole us. The constructor returns with the thread ready. (Refuted: the thread may start before the members it uses exist; an uninitialised timer id or a signal may end it; above 71 minutes the duration is undefined.)", "quantifier": "all runs of the user, the thread, the clock, other reactors and clients; all timeouts, names and durations", "why_tests_cant": "depends on the interleaving of two threads and the clock; the unit tests sleep for fixed times", "anchors": ["cpp/frameProcessor/src/WatchdogTimer.cpp:start_timer", "cpp/frameProcessor/src/WatchdogTimer.cpp:finish_timer", "cpp/frameProcessor/src/WatchdogTimer.cpp:run", "cpp/frameProcessor/src/WatchdogTimer.cpp:heartbeat", "cpp/frameProcessor/include/WatchdogTimer.h:WatchdogTimer", "cpp/common/include/gettime.h:elapsed_us"]}
{"id": "C72", "title": "The frame processor starts with a reactor and ends in order", "statement": "The constructor returns, with the reactor made by its thread. The program ends only after an acknowledged shutdown request or the frame limit. It then stops every plugin in order, lets workers go that wait for this, drops the plugins, stops its own worker and the reactor, joins its thread, closes the channels and the pool, in this order and in 3n+11 steps for n plugins; it can only be held up by a full queue of the plugin to be stopped or by the reactor's current request. At the end no plugin accepts work and the reactor's thread has ended. With plugins that have no frames the end is always reached, and no plugin is destroyed before its thread ends if the main thread is the slower one. (Refuted: requests before the wait are lost; spurious wake-ups; full queues; requests during the end; plugins destroyed under their threads; the thread before the member reactor_ exists.)", "quantifier": "all interleavings of the main thread, the reactor's thread, the threads of any number of plugins with any connections, incoming frames and requests", "why_tests_cant": "needs particular interleavings of several threads at start and end; hangs and use after free do not show in most runs", "anchors": ["cpp/frameProcessor/src/FrameProcessorController.cpp:shutdown", "cpp/frameProcessor/src/FrameProcessorController.cpp:waitForShutdown", "cpp/frameProcessor/src/FrameProcessorController.cpp:callback", "cpp/frameProcessor/src/FrameProcessorController.cpp:FrameProcessorController", "cpp/frameProcessor/src/FrameProcessorController.cpp:runIpcService", "cpp/frameProcessor/src/IFrameCallback.cpp:stop"]}
{"id": "C73", "title": "A subscriber is told what the file writer did", "statement": "Each event of an acquisition (start, file created, frame written, file closed, stop) becomes a message of two parts that parse to the event's name, the acquisition's identifier and rank, the total where due, path or frame and offset, and durations; two different events never give the same message. Values of publish_meta arrive with their type and bytes. Messages of a publisher arrive in order, at most once, and all of them when none is lost, which is so while no publisher has more messages than its channel holds; the subscriber then reads the story of the acquisition. A message object is deleted once published: those alive are queued or lost. A frame is told exactly once with its number and offset if it is accepted; no other frame is. (Refuted: with a full channel the message is lost and its object is never deleted; messages of successive acquisitions can be swapped.)", "quantifier": "all acquisitions, names, events and durations below 2^64, all interleavings of any number of publishers and the controller, all channel lengths, all frames and HDF5 failures", "why_tests_cant": "depends on the speed of the controller against the writers and on arbitrary strings in names and paths", "anchors": ["cpp/frameProcessor/src/MetaMessagePublisher.cpp:publish_meta", "cpp/frameProcessor/src/Acquisition.cpp:get_create_meta_header", "cpp/frameProcessor/src/Acquisition.cpp:process_frame", "cpp/frameProcessor/src/FrameProcessorController.cpp:handleMetaRxChannel", "cpp/common/src/Json.cpp:str"]}
{"id": "C74", "title": "The receiver thread starts, serves and ends cleanly", "statement": "start() returns true only if the thread is in its reactor without error, with one socket for each configured port, bound to the configured address (UDP) or connected (TCP); it returns false only if initialisation failed or it waited too long. The descriptors of the rest of the program are exactly those it opened and did not close. Without failed starts the sockets are those there were before and those of the running thread, so after stop() none is left. After stop() the thread has at most (number of ports + 7) steps of its own to make and one is always possible until it is joined. Once the identity is known, every release passed on before stop reaches the decoder in order or waits for it; no release is duplicated. (Refuted: after a failed start its first port stays bound and can never be received on again; stop can wait for ever on a full channel or an unfinished TCP message; releases around a restart are lost; start gives up after 256 rounds.)", "quantifier": "all interleavings of the two threads, other programs and other parts of this one, all configurations, ports, descriptors, results of system calls, channel lengths and numbers of restarts", "why_tests_cant": "depends on the interleaving of two threads, on ports other programs hold for a while and on full channels", "anchors": ["cpp/frameReceiver/src/FrameReceiverRxThread.cpp:start", "cpp/frameReceiver/src/FrameReceiverRxThread.cpp:stop", "cpp/frameReceiver/src/FrameReceiverRxThread.cpp:run_service", "cpp/frameReceiver/src/FrameReceiverUDPRxThread.cpp:run_specific_service", "cpp/frameReceiver/src/FrameReceiverTCPRxThread.cpp:run_specific_service", "cpp/frameReceiver/src/FrameReceiverZMQRxThread.cpp:run_specific_service", "cpp/frameReceiver/src/FrameReceiverController.cpp:configure_rx_thread"]}
{"id": "C75", "title": "The reactor calls the callbacks of what is ready", "statement": "Each time around its loop the reactor calls exactly the callbacks last registered for those ready channels and sockets that were registered at the beginning of that round, each once, channels before sockets; what callbacks register or remove counts from the next round; when nothing is ready nothing is called. run returns 0 exactly when stop was called or there is neither channel, socket nor timer left; a signal or an interrupted call in a callback makes it return -1 before a further callback is called; a callback that throws ends the round after those before it. What was removed is not called any more. (Refuted for the same round: a channel removed by an earlier callback, or after stop(), is still called.)", "quantifier": "all sequences of registrations and removals, before run and by callbacks, all sets of ready items in each round, all results of callbacks", "why_tests_cant": "depends on which channels are ready at the same time and on callbacks that change the registrations", "anchors": ["cpp/common/src/IpcReactor.cpp:run", "cpp/common/src/IpcReactor.cpp:rebuild_pollitems", "cpp/common/src/IpcReactor.cpp:register_channel", "cpp/common/src/IpcReactor.cpp:remove_channel", "cpp/common/src/IpcReactor.cpp:register_socket", "cpp/common/src/IpcReactor.cpp:remove_socket", "cpp/common/src/IpcReactor.cpp:stop"]}
{"id": "C76", "title": "Channels listen where they were bound, deliver each message once to the right peer, and have sound identities", "statement": "A channel listens exactly at the addresses its bound endpoints were resolved to and not unbound since, has_bound_endpoint tells which, and unbind ends exactly that endpoint's listening. A ROUTER channel receives from each DEALER the messages it sent, once and in order, with its identity, and nothing else; all of them once nothing is under way; its recv never waits half way through. Each DEALER receives exactly the replies sent to its identity and not dropped by a full queue, in order; a reply to an unknown identity reaches nobody. The identity of a DEALER is four hexadecimal digits, a dash and four digits, fits its array, and differs for draws of random() that differ enough. (Refuted: endpoints bound twice; addresses of 256 characters; messages of several parts, which make recv wait and exchange identities and payloads; the 64 largest values of random(), which overflow the array.)", "quantifier": "all sequences of bind and unbind and results of ZeroMQ, all interleavings of sends, arrivals and receives of any number of peers, all results of random()", "why_tests_cant": "depends on interleavings of several peers, on what other programs send, and on random numbers that occur once in 10^7 runs", "anchors": ["cpp/common/src/IpcChannel.cpp:bind", "cpp/common/src/IpcChannel.cpp:unbind", "cpp/common/src/IpcChannel.cpp:has_bound_endpoint", "cpp/common/src/IpcChannel.cpp:send", "cpp/common/src/IpcChannel.cpp:router_send_identity", "cpp/common/src/IpcChannel.cpp:recv", "cpp/common/src/IpcChannel.cpp:IpcChannel"]}
{"id": "C77", "title": "The applications start with exactly what their command line says, or do not start", "statement": "A command line of frameReceiver or frameProcessor made of options in any order, each at most once, written long, abbreviated or short, with the value in the same or in the next argument, runs the application with exactly the values given and the documented defaults for the rest; the logging file is taken as XML exactly if its name ends in .xml. A request for help or the version ends with 0 and runs nothing. An option twice, a number that cannot be read, an unknown option, a missing value or a refused logging file end with 1 and run nothing. (Refuted: that stray arguments are refused; that a long option in place of a missing value is noticed; that negative numbers of threads are refused.)", "quantifier": "all command lines: any number and order of options, all spellings, all values", "why_tests_cant": "the spellings, orders and values are unbounded, and what is silently accepted shows only in later behaviour", "anchors": ["cpp/frameReceiver/src/FrameReceiverApp.cpp:parse_arguments", "cpp/frameReceiver/src/FrameReceiverApp.cpp:main", "cpp/frameProcessor/src/FrameProcessorApp.cpp:parse_arguments", "cpp/frameProcessor/src/FrameProcessorApp.cpp:main"]}
{"id": "C78", "title": "The simulator simulates exactly what its command line says", "statement": "A command line of frameSimulator that names the detector first and then options of the simulator and of the Dummy plugin in any order, each at most once and with readable numbers, loads the plugin of that detector from the directory told and simulates with exactly the values told and the documented defaults for the rest (nothing without a destination address). Without a directory it ends with 1. Whatever the line, nothing is simulated unless a plugin was loaded. (Refuted: that an unreadable number stops it; that it never dies of an exception; that options may come before the detector; that the exit code tells success.)", "quantifier": "all command lines, all results of loading", "why_tests_cant": "the lines are unbounded; what two passes of parsing and a swallowed exception leave behind depends on the order of the arguments", "anchors": ["cpp/frameSimulator/src/FrameSimulatorApp.cpp:parse_arguments", "cpp/frameSimulator/src/FrameSimulatorApp.cpp:main", "cpp/frameSimulator/src/FrameSimulatorPluginUDP.cpp:setup", "cpp/frameSimulator/src/DummyUDPFrameSimulatorPlugin.cpp:setup", "cpp/frameSimulator/include/FrameSimulatorOption.h"]}
{"id": "C79", "title": "The index attributes of a dataset name the images of its file", "statement": "Whatever frames arrive and whatever HDF5 refuses, every dataset of every file an acquisition created has image_nr_low and image_nr_high exactly if its definition asks for them, and their values depend on the number of the file alone. With one block per file and more than one frame per block they name exactly the images that belong in the file. (Refuted: for more blocks per file, for single frames, without a limit of frames.)", "quantifier": "all settings, frames and failures, all files created", "why_tests_cant": "holds for all geometries and sequences of frames, and must survive every later write to the dataset", "anchors": ["cpp/frameProcessor/src/Acquisition.cpp:create_file", "cpp/frameProcessor/src/HDF5File.cpp:create_dataset"]}
{"id": "C80", "title": "What the file says about a dataset fits the frames stored in it", "statement": "Whenever a frame is reported as written, its dataset was declared to HDF5 with the compression (registered filter number), the element type and the dimensions of that frame, and with no others; the rows are fixed as asked or unlimited; every position a frame can be written to is the start of a chunk; HDF5 accepts the declaration if chunks are no larger than a frame; blosc is told the bytes of an element and of a frame. A dataset without known type or compression takes no frame. (Refuted: chunks larger than a frame; frames of 4 GiB.)", "quantifier": "all definitions, frames, states and HDF5 failures", "why_tests_cant": "all combinations of type, compression, dimensions, chunks and rows; sizes beyond 32 bits", "anchors": ["cpp/frameProcessor/src/HDF5File.cpp:create_dataset", "cpp/frameProcessor/src/HDF5File.cpp:datatype_to_hdf_type", "cpp/frameProcessor/src/Acquisition.cpp:check_frame_valid", "cpp/frameProcessor/include/HDF5File.h:103-107"]}
{"id": "C81", "title": "Messages of several parts reach a ZMQ decoder whole and in order", "statement": "Whatever messages arrive on the ZMQ receive channel, if no part is longer than what the decoder allocates, the decoder is told exactly their parts in order, byte for byte at the addresses it gave, and once after the last part of each message that it is complete; at any time it has been told a beginning of that; no other memory is written. (Refuted: that parts of any length are safe; that any decoder is.)", "quantifier": "all sequences of messages, all decoders (as state machines), any number of calls", "why_tests_cant": "unbounded sequences of messages and any decoder", "anchors": ["cpp/frameReceiver/src/FrameReceiverZMQRxThread.cpp:handle_receive_socket", "cpp/common/src/IpcChannel.cpp:recv_raw", "cpp/common/src/IpcChannel.cpp:eom", "cpp/frameReceiver/include/FrameDecoderZMQ.h"]}
{"id": "C82", "title": "The simulator sends frames at the interval asked for", "statement": "Whatever sending takes, two frames in a row start more than the interval less one second apart and never before the first is sent; if sleeping is exact, less than a second later than the longer of the interval and the time of sending; within one second of the clock the whole interval is slept; after every so many packets of a frame there is a pause of 10 ms. (Refuted: that the interval is exact, in both directions.)", "quantifier": "all intervals, gaps, numbers of packets, times of sending and sleeping", "why_tests_cant": "depends on where in a second of the clock a frame is sent; all durations", "anchors": ["cpp/frameSimulator/src/FrameSimulatorPluginUDP.cpp:replay_frames"]}
{"id": "C83", "title": "What has been written to an open file can be read", "statement": "Unless the earliest file version is asked for, a frame can be seen by a reader of the open file once the call that writes it returns, and so can the first value of every parameter; with a clock that is not set back and flushes that work, every value of a parameter can be seen once a further one is written 1.001 s later; values of a parameter cause flushes more than a second apart; with the earliest version nothing is flushed before the file is closed; a successful close shows everything, and nothing is written afterwards. (Refuted: that every value of a parameter is seen some time while the file is open; that a failed flush is made up for by the next value.)", "quantifier": "all sequences of calls, answers of the HDF5 library and readings of the clock", "why_tests_cant": "depends on the clock, on failures of the library and on when other values are written", "anchors": ["cpp/frameProcessor/src/HDF5File.cpp:write_frame", "cpp/frameProcessor/src/HDF5File.cpp:write_parameter", "cpp/frameProcessor/src/HDF5File.cpp:close_file"]}
{"id": "C84", "title": "A class name gives the class registered under it", "statement": "Whatever was loaded before: a name registered by an open library gives an object made by what was registered last under it, and no library is opened; another name opens the library of the path once, an error of opening is thrown and changes nothing, and the name gives what that library registers under it or a null pointer; only libraries asked for are opened, each once; every object comes from a library asked for that registers the name; if no two libraries register the same name, a name stands for one class for good. (Refuted: that the class comes from the library of the path; that a name stands for one class for good in general.)", "quantifier": "all libraries, all sequences of requests", "why_tests_cant": "depends on everything loaded before in the process", "anchors": ["cpp/common/include/ClassLoader.h:load_class", "cpp/common/include/ClassLoader.h:factory_map"]}
