{"id": "C01", "title": "XOR frames decode to what was encoded", "statement": "Encoding any request of fewer than 2^32 bytes for a legacy (XOR) device yields a frame that is a 4-byte big-endian byte count followed by exactly that many bytes, and decoding those bytes returns the request byte for byte; a longer request is rejected with an exception and nothing is produced.", "quantifier": "all byte strings", "why_tests_cant": "the key stream depends on every preceding byte; only a proof covers every length and content", "anchors": ["kasa/transports/xortransport.py XorEncryption.encrypt/decrypt/_xor_payload/_xor_encrypted_payload"]}
{"id": "C02", "title": "XOR frames are unambiguous on the stream", "statement": "Two different requests never produce the same frame, no frame is a proper prefix of another, and a reader that repeatedly takes 4 length bytes and then that many bytes recovers the exact sequence of requests from the concatenation of any number of frames.", "quantifier": "all pairs and all finite sequences of requests", "why_tests_cant": "unbounded sequences", "anchors": ["kasa/transports/xortransport.py XorEncryption.encrypt, XorTransport._execute_send"]}
{"id": "C03", "title": "A legacy TCP response always belongs to its own request", "statement": "On one XOR transport, whatever mixture of successful exchanges, connection failures, write errors, truncated reads, timeouts, cancellations, resets and late replies occurs, a response returned to a caller is the reply to that caller's own request and never a late reply to an earlier request.", "quantifier": "all histories of sends, faults, resets and device reply timings", "why_tests_cant": "fault schedules are unbounded; a late reply needs a particular interleaving of timeout and reply", "anchors": ["kasa/transports/xortransport.py XorTransport.send/_execute_send/_connect/close_without_wait/reset"]}
{"id": "C04", "title": "Legacy transport errors are classified consistently", "statement": "Every failure of a legacy TCP exchange surfaces as a library exception: a refused or unreachable connection as a plain library error (never retried), a timeout as the library's TimeoutError, anything else as a retryable error - and every failure leaves the transport without an open connection and no connection leaked. A cancelled exchange re-raises the cancellation and also drops the connection.", "quantifier": "all transport states and all failures at connect, write or read", "why_tests_cant": "failure point x failure kind x prior connection state", "anchors": ["kasa/transports/xortransport.py XorTransport.send"]}
{"id": "C05", "title": "Legacy query retries are bounded and selective", "statement": "A legacy (IOT) query performs at most retry_count+1 transport exchanges; it returns the first successful reply; authentication errors and non-retryable library errors are never retried; before every retry except after a refused connection the transport is reset; when attempts are exhausted the last error is raised.", "quantifier": "all retry counts and all (infinite) sequences of per-attempt outcomes", "why_tests_cant": "outcome sequences are unbounded", "anchors": ["kasa/protocols/iotprotocol.py IotProtocol._query"]}
{"id": "C06", "title": "SMART query retries are bounded and selective", "statement": "A SMART query performs at most retry_count+1 executions; it returns the first success; authentication errors and non-retryable library errors are never retried; the transport is reset before each retry except after a connection error; exhaustion raises the last error; waiting between attempts happens only for retryable errors and timeouts.", "quantifier": "all retry counts and all sequences of per-attempt outcomes", "why_tests_cant": "outcome sequences are unbounded", "anchors": ["kasa/protocols/smartprotocol.py SmartProtocol._query"]}
{"id": "C07", "title": "A multi-method SMART query answers every method asked", "statement": "When a SMART query with several methods succeeds, the returned mapping has exactly one entry per requested method, each holding that method's result or its error code, regardless of how the request was split into batches; no batch carries more methods than the configured batch size.", "quantifier": "all request sets, batch sizes >= 1 and device replies", "why_tests_cant": "split points and reply shapes are unbounded", "anchors": ["kasa/protocols/smartprotocol.py SmartProtocol._execute_multiple_query"]}
{"id": "C08", "title": "List paging fetches the whole list", "statement": "If a device announces a list of N items and serves it in pages, a query returns all N items in device order without duplicates, issues each page request at the index of the first missing item, and terminates even if the device returns an empty page.", "quantifier": "all list lengths, page sizes and page splits", "why_tests_cant": "page splits are unbounded", "anchors": ["kasa/protocols/smartprotocol.py SmartProtocol._handle_response_lists/_get_list_request", "kasa/protocols/smartcamprotocol.py SmartCamProtocol._get_list_request"]}
{"id": "C09", "title": "Every device error code maps to exactly one kind of exception", "statement": "For any integer error code in a SMART reply: zero is success; a code in the authentication set raises AuthenticationError; a code in the retryable set raises a retryable error; any other code (known or unknown) raises DeviceError carrying the code, unknown codes being reported as INTERNAL_UNKNOWN_ERROR; no code belongs to two of these classes; in non-raising mode the code itself is returned in the entry and no exception is raised.", "quantifier": "all integers", "why_tests_cant": "codes are unbounded integers; disjointness of the tables is a global fact", "anchors": ["kasa/exceptions.py SmartErrorCode/SMART_RETRYABLE_ERRORS/SMART_AUTHENTICATION_ERRORS", "kasa/protocols/smartprotocol.py SmartProtocol._handle_response_error_code"]}
{"id": "C10", "title": "Redaction removes every sensitive value and nothing else", "statement": "Redacting any JSON-like value leaves its shape and all values under non-sensitive keys unchanged, and at every depth replaces each value under a sensitive key by its masking function's result or a fixed placeholder, except null and empty-string values; the input is never modified.", "quantifier": "all JSON values of any depth and all redactor tables", "why_tests_cant": "nesting is unbounded", "anchors": ["kasa/protocols/protocol.py redact_data/mask_mac"]}
{"id": "C11", "title": "A MAC address mask hides the device-specific half", "statement": "Masking a MAC keeps only the vendor half and the masked text is the same for any two addresses of the same vendor and format.", "quantifier": "all MAC strings", "why_tests_cant": "infinitely many strings", "anchors": ["kasa/protocols/protocol.py mask_mac"]}
{"id": "C12", "title": "KLAP handshake accepts only a server that knows an accepted credential", "statement": "Handshake 1 succeeds with an auth hash only if the server hash equals the expected hash for the user's credentials, for one of the built-in default credentials, or for blank credentials, tried in that order and stopping at the first match; otherwise AuthenticationError is raised. Non-200 replies raise.", "quantifier": "all seeds, hashes, credentials and server replies", "why_tests_cant": "the decision depends on arbitrary 32-byte values", "anchors": ["kasa/transports/klaptransport.py KlapTransport.perform_handshake1/handshake1_seed_auth_hash"]}
{"id": "C13", "title": "KLAP session messages decrypt to what was encrypted and never reuse a sequence number", "statement": "Within a KLAP session, decrypting an encrypted message with the same sequence number returns the plaintext, and successive encryptions use consecutive sequence numbers, hence pairwise distinct IVs, as long as the counter stays within a signed 32-bit integer; at the top of the range encryption fails instead of wrapping.", "quantifier": "all plaintexts and all numbers of messages", "why_tests_cant": "unbounded message counts and contents", "anchors": ["kasa/transports/klaptransport.py KlapEncryptionSession"]}
{"id": "C14", "title": "KLAP requests are only sent inside a live session", "statement": "On a KLAP transport, whatever the history of sends, server status codes, resets and clock values, an encrypted request is only posted after a completed handshake that has not expired; a 403 reply to a request makes the next send start with a new handshake and is reported as retryable; any other non-200 reply raises without discarding the session.", "quantifier": "all histories and clock readings", "why_tests_cant": "histories and clocks are unbounded", "anchors": ["kasa/transports/klaptransport.py KlapTransport.send/perform_handshake/_handshake_session_expired/reset"]}
{"id": "C15", "title": "AES transport sends user requests only over an established, logged-in session", "statement": "On an AES (securePassthrough) transport, any history of sends, error codes, expirations and resets: a user request is posted only when a handshake and a login have completed, under that session's key and with its token; a failed handshake, an expired session or an authentication error forces a fresh handshake before anything else (a login that failed otherwise is only repeated); the default credentials are tried only after the user's own login was refused with a login error; and the send returns the device's answer or the error that stopped it.", "quantifier": "all histories of replies and clocks", "why_tests_cant": "unbounded histories", "anchors": ["kasa/transports/aestransport.py AesTransport.send/perform_handshake/perform_login/try_login/_handle_response_error_code"]}
{"id": "C16", "title": "AES session encryption round-trips", "statement": "Decrypting what an AES session encrypted returns the original bytes for every payload, for any block cipher; padding never leaves an ambiguous message; unpadding malformed data raises.", "quantifier": "all byte strings and all block ciphers", "why_tests_cant": "unbounded lengths", "anchors": ["kasa/transports/aestransport.py AesEncyptionSession", "kasa/transports/klaptransport.py KlapEncryptionSession.encrypt/decrypt"]}
{"id": "C17", "title": "Camera (SSL-AES) transport recovers after reset", "statement": "After a camera transport is reset, or a session expires, the next request performs a handshake from scratch exactly as a fresh transport with the same credentials would.", "quantifier": "all histories", "why_tests_cant": "needs particular histories (insecure login, then reset)", "anchors": ["kasa/transports/sslaestransport.py SslAesTransport.reset/perform_handshake/perform_handshake1/send"]}
{"id": "C18", "title": "Each discovered host is reported at most once", "statement": "During one discovery, whatever datagrams arrive in whatever order, each source address gets at most one entry over the discovered, unsupported and invalid tables, the discovered callback runs at most once per address and only for discovered devices.", "quantifier": "all sequences of datagrams", "why_tests_cant": "datagram orders are unbounded", "anchors": ["kasa/discover.py _DiscoverProtocol.datagram_received/_handle_discovered_event"]}
{"id": "C19", "title": "A valid discovery reply is never lost because of an earlier stray datagram", "statement": "If a supported device answers discovery on a discovery port, it is recorded as discovered even if another datagram from the same host arrived earlier.", "quantifier": "all sequences of datagrams", "why_tests_cant": "needs a specific interleaving", "anchors": ["kasa/discover.py _DiscoverProtocol.datagram_received"]}
{"id": "C20", "title": "Single-host discovery returns the host or a definite error", "statement": "Discovering one host returns the device for exactly that address if it was discovered; raises the recorded UnsupportedDeviceError or invalid error otherwise (or calls the unsupported callback and returns nothing); and raises TimeoutError when nothing was recorded.", "quantifier": "all discovery outcomes and arguments", "why_tests_cant": "outcome combinations", "anchors": ["kasa/discover.py Discover.discover_single"]}
{"id": "C21", "title": "Device configuration survives serialisation", "statement": "Converting any device configuration to a dictionary and back yields an equal configuration, up to the documented omission of the HTTP client; the conversion that controls credentials never outputs credentials unless asked and outputs exactly the supplied hash.", "quantifier": "all configurations", "why_tests_cant": "configurations are an infinite product type", "anchors": ["kasa/deviceconfig.py DeviceConfig/DeviceConnectionParameters"]}
{"id": "C22", "title": "Connection parameters are rejected exactly when unknown", "statement": "Building connection parameters from strings succeeds exactly when the family and the encryption name are known values, and fails with a library error otherwise; the values are kept as given and a missing https flag means no TLS.", "quantifier": "all strings", "why_tests_cant": "all strings", "anchors": ["kasa/deviceconfig.py DeviceConnectionParameters.from_values"]}
{"id": "C23", "title": "Protocol selection is a function of family, encryption and https", "statement": "For every configuration, exactly the documented transport/protocol pair is selected, or none when the combination is unsupported; a camera never gets the plug protocol and vice versa; strict mode never selects a protocol that non-strict mode would not.", "quantifier": "all configurations", "why_tests_cant": "cartesian product of all parameters, with strict and non-strict modes", "anchors": ["kasa/device_factory.py get_protocol/get_device_class_from_family"]}
{"id": "C24", "title": "A failed connect never leaks an open protocol", "statement": "Connecting to a device either returns a device whose update has completed on the given protocol, which is still open, or raises after closing that protocol; there is no path that raises with the protocol left open once it was created.", "quantifier": "all failure points in connect", "why_tests_cant": "failure points", "anchors": ["kasa/device_factory.py connect/_connect"]}
{"id": "C25", "title": "HTTP errors map to library errors and requests are spaced", "statement": "Every failure of an HTTP post raises a library exception chosen by its kind, and once a device has produced an OS error every later request starts no earlier than the minimum gap after the previous one finished.", "quantifier": "all failures and all timing histories", "why_tests_cant": "timing histories", "anchors": ["kasa/httpclient.py HttpClient.post"]}
{"id": "C26", "title": "A feature never passes an invalid value to its setter", "statement": "Setting a feature calls the underlying setter only when the feature is writable and the value is valid for the feature type (a number within the declared range, one of the choices, or an action without value); otherwise an exception is raised and nothing is sent. Construction rejects inconsistent feature declarations.", "quantifier": "all features and values", "why_tests_cant": "values are unbounded", "anchors": ["kasa/feature.py Feature.set_value/__post_init__"]}
{"id": "C27", "title": "A module failing repeatedly backs off and is finally disabled", "statement": "A SMART module that fails is not queried again before 30*errors seconds, is disabled exactly from its tenth consecutive error on, a disabled module is never queried again, and a success before that resets the error count and the delay; only the module for the device info, without which no update returns, is asked every time.", "quantifier": "all sequences of update outcomes and clock readings", "why_tests_cant": "histories", "anchors": ["kasa/smart/smartmodule.py SmartModule._set_error/_should_update/disabled/update_interval", "kasa/smart/smartdevice.py SmartDevice._handle_module_post_update"]}
{"id": "C28", "title": "Module data is exactly the device's reply for its own queries", "statement": "Reading module data returns the replies to exactly the methods the module queries, raises a library error if one is missing, raises DeviceError if one failed - unless that reply is optional, in which case only that entry is dropped; data of other modules is never included.", "quantifier": "all query sets and reply mappings", "why_tests_cant": "unbounded mappings", "anchors": ["kasa/smart/smartmodule.py SmartModule.data", "kasa/smartcam/smartcammodule.py SmartCamModule.data"]}
{"id": "C29", "title": "SMART child devices track the hub's list", "statement": "After processing a hub's child list, the set of child devices is exactly the listed children that are supported (of a known type), existing children are kept, vanished ones removed, unsupported ones logged at most once and never created, and the change flag is true exactly when a child was added or removed.", "quantifier": "all histories of child lists", "why_tests_cant": "histories", "anchors": ["kasa/smart/smartdevice.py SmartDevice._create_delete_children"]}
{"id": "C30", "title": "Reported on-time start is stable", "statement": "Reported switch-on time changes only when the device's on-time counter really indicates a new start: repeated reads with a jitter of up to 5 s return the same instant, a later start is reported, and an off device reports nothing.", "quantifier": "all sequences of clock readings and counters", "why_tests_cant": "histories", "anchors": ["kasa/smart/smartdevice.py SmartDevice.on_since", "kasa/iot/iotdevice.py IotDevice.on_since", "kasa/iot/iotstrip.py IotStripPlug.on_since"]}
{"id": "C31", "title": "Legacy update requests respect the device's response budget", "statement": "A legacy update splits module queries into requests whose estimated response fits the device limit (a single module may exceed it on its own), asks every supported module's query exactly once, and the merged reply contains every reply; modules are never lost by the split.", "quantifier": "all module sets and sizes", "why_tests_cant": "unbounded module sets", "anchors": ["kasa/iot/iotdevice.py IotDevice._modular_update"]}
{"id": "C32", "title": "Merging queries never loses a command", "statement": "Merging module queries yields a request that contains every command of every query; merging is recursive on nested mappings, later values win on leaf conflicts; non-conflicting merges are independent of order.", "quantifier": "all nested mappings", "why_tests_cant": "nesting is unbounded", "anchors": ["kasa/iot/iotmodule.py _merge_dict/merge"]}
{"id": "C33", "title": "A legacy command either returns its own payload or raises", "statement": "Calling a command on a legacy device returns exactly the device's payload for that target and command without its error code; a communication failure, missing target or command, or a non-zero error code raises a library exception.", "quantifier": "all replies", "why_tests_cant": "reply shapes", "anchors": ["kasa/iot/iotdevice.py IotDevice._query_helper/_create_request"]}
{"id": "C34", "title": "Sockets of a legacy strip keep their own data", "statement": "After updating a power strip, the schedule, usage, anti-theft and countdown data reported by each socket is that socket's own reply.", "quantifier": "all strips and replies", "why_tests_cant": "needs several children and aliasing of nested dictionaries", "anchors": ["kasa/iot/iotstrip.py IotStripPlug/IotStrip.update", "kasa/iot/iotdevice.py IotDevice._modular_update"]}
{"id": "C35", "title": "Strip on/off acts on every socket that needs it", "statement": "Turning a strip on (off) sends exactly one switch command to every socket that is off (on) and none to the others; the strip is on iff some socket is on; its on-since is the earliest socket start.", "quantifier": "all strips", "why_tests_cant": "any number of sockets", "anchors": ["kasa/iot/iotstrip.py IotStrip.turn_on/turn_off/is_on/on_since, IotStripPlug._query_helper"]}
{"id": "C36", "title": "Strip energy figures aggregate the sockets", "statement": "A strip's power, current and total are the sums over its sockets and its voltage the average.", "quantifier": "all socket readings", "why_tests_cant": "any number of sockets and reply formats", "anchors": ["kasa/iot/iotstrip.py StripEmeter.get_status/status/merge_sums"]}
{"id": "C37", "title": "Energy readings have one meaning in every unit", "statement": "An energy reading can be read in base units or milli units consistently, whatever unit the device reported; a quantity the device did not report reads as absent.", "quantifier": "all reading dictionaries", "why_tests_cant": "dictionary contents and orders", "anchors": ["kasa/emeterstatus.py EmeterStatus.__getitem__"]}
{"id": "C38", "title": "Usage statistics conversion keeps the right entry", "statement": "Converting periodic statistics gives for each day/month the device's value in the requested unit, and today's/this month's consumption equals the corresponding entry of the full conversion.", "quantifier": "all statistics lists", "why_tests_cant": "list contents", "anchors": ["kasa/iot/modules/usage.py Usage", "kasa/iot/modules/emeter.py Emeter._convert_stat_data"]}
{"id": "C39", "title": "Saving a light preset addresses the preset it names", "statement": "Saving a preset by its listed name stores it at the device slot of the preset that carries that name.", "quantifier": "all preset lists", "why_tests_cant": "needs mixed effect and plain presets", "anchors": ["kasa/iot/modules/lightpreset.py LightPreset.save_preset", "kasa/smart/modules/lightpreset.py LightPreset.save_preset"]}
{"id": "C40", "title": "Dimmer commands are validated and never switch off by accident", "statement": "Dimmer brightness commands send a value between 1 and 100 (0 is sent as 1 by the brightness setter), transitions a positive duration, out-of-range values raise and nothing is sent; button and fade settings are sent under the documented names.", "quantifier": "all integers and options", "why_tests_cant": "unbounded integers", "anchors": ["kasa/iot/iotdimmer.py IotDimmer"]}
{"id": "C41", "title": "Bulb commands are validated", "statement": "Every bulb command sends only valid hue, saturation, brightness and temperature for the model; invalid values raise and nothing is sent.", "quantifier": "all integers and models", "why_tests_cant": "unbounded integers", "anchors": ["kasa/iot/iotbulb.py IotBulb"]}
{"id": "C42", "title": "Setting a legacy light state never sends contradictory power", "statement": "Setting a light state with brightness zero or light_on false turns the device off with one command, otherwise turns it on with the requested fields, unset fields being omitted.", "quantifier": "all light states and device kinds", "why_tests_cant": "product of optional fields", "anchors": ["kasa/iot/modules/light.py Light.set_state"]}
{"id": "C43", "title": "Setting a SMART light state never sends contradictory power", "statement": "Setting a light state sends one command with device_on false exactly when brightness is zero or light_on is false, plus exactly the set fields among the device's parameters.", "quantifier": "all light states", "why_tests_cant": "product of optional fields", "anchors": ["kasa/smart/modules/light.py Light.set_state"]}
{"id": "C44", "title": "Legacy timezone index and name correspond", "statement": "Every supported timezone index has a name; distinct indexes have distinct names; setting a named timezone sends its own index.", "quantifier": "all indexes and names", "why_tests_cant": "table-wide fact, and all non-table inputs", "anchors": ["kasa/iot/iottimezone.py"]}
{"id": "C45", "title": "Motion sensor percentages are in range", "statement": "The motion level reported as percent lies in [-100,100] and triggering is consistent with the configured threshold.", "quantifier": "all sensor readings and calibrations", "why_tests_cant": "all integers", "anchors": ["kasa/iot/modules/motion.py PIRStatus/Motion"]}
{"id": "C46", "title": "MAC addresses are normalised", "statement": "The MAC of a legacy device is reported as uppercase pairs separated by colons, whichever of the known raw formats the device uses.", "quantifier": "all raw strings", "why_tests_cant": "all strings", "anchors": ["kasa/iot/iotdevice.py IotDevice.mac"]}
{"id": "C47", "title": "Child requests reach only the child and replies are unwrapped", "statement": "A query to a hub child is wrapped with that child's id, a reply is unwrapped to the child's own result per method, and a child error is raised as the corresponding exception.", "quantifier": "all child queries and replies", "why_tests_cant": "reply shapes", "anchors": ["kasa/protocols/smartprotocol.py _ChildProtocolWrapper", "kasa/protocols/smartcamprotocol.py _ChildCameraProtocolWrapper"]}
{"id": "C48", "title": "Transition settings round-trip", "statement": "Setting a turn-on/turn-off transition to d seconds with 1<=d<=max makes the next refreshed reading d; zero disables it and reads zero; larger values raise and nothing is sent.", "quantifier": "all integers and device states", "why_tests_cant": "all integers", "anchors": ["kasa/smart/modules/lighttransition.py"]}
{"id": "C49", "title": "Light effect names are recovered", "statement": "Every effect the device lists is available under its own name and selecting that name activates that effect; changing effect brightness changes nothing else.", "quantifier": "all scene lists", "why_tests_cant": "all strings", "anchors": ["kasa/smart/modules/lighteffect.py"]}
{"id": "C50", "title": "Thermostat mode reflects the device", "statement": "The thermostat mode is Off under frost protection, Idle when no operating state is reported, otherwise the reported known state.", "quantifier": "all state sets", "why_tests_cant": "all sets of strings", "anchors": ["kasa/smart/modules/temperaturecontrol.py", "kasa/interfaces/thermostat.py"]}
{"id": "C51", "title": "SMART energy figures use the first available source", "statement": "Current consumption in watts is derived from the first source present, and is absent only when no source is present; voltage and current count as supported from the first reply with a voltage on.", "quantifier": "all replies", "why_tests_cant": "reply shapes", "anchors": ["kasa/smart/modules/energy.py"]}
{"id": "C52", "title": "Power protection thresholds stay in range", "statement": "A power protection threshold outside [0,max] raises and nothing is sent; zero disables; a positive threshold enables with exactly that value.", "quantifier": "all integers and states", "why_tests_cant": "all integers", "anchors": ["kasa/smart/modules/powerprotection.py"]}
{"id": "C53", "title": "Vacuum status reflects the last reply", "statement": "The vacuum status and error depend only on the last reply, are Error exactly when the reply carries an error, and re-processing the same reply does not change them.", "quantifier": "all replies and repeated processing", "why_tests_cant": "repeated processing of one reply", "anchors": ["kasa/smart/modules/clean.py Clean._post_update_hook/status"]}
{"id": "C54", "title": "Cleaning records can be re-read", "statement": "Processing the same cleaning record reply again yields the same records.", "quantifier": "all record replies", "why_tests_cant": "repeated processing", "anchors": ["kasa/smart/modules/cleanrecords.py"]}
{"id": "C55", "title": "Two vacuums never share consumable data", "statement": "The consumable values reported for a device come from that device's own reply, with any number of devices updated in any order.", "quantifier": "all interleavings of updates of several devices", "why_tests_cant": "cross-object aliasing", "anchors": ["kasa/smart/modules/consumables.py"]}
{"id": "C56", "title": "Alarm parameters are validated and converted", "statement": "Setting alarm volume, duration or sound sends the value the device understands or raises.", "quantifier": "all arguments", "why_tests_cant": "all arguments", "anchors": ["kasa/smart/modules/alarm.py", "kasa/smartcam/modules/alarm.py"]}
{"id": "C57", "title": "Firmware update stops only on a definite state", "statement": "A firmware update is started only if an update was found, polls until the device reports idle or an error, tolerating any number of failed polls within five minutes, and returns the final state.", "quantifier": "all sequences of poll outcomes", "why_tests_cant": "unbounded sequences", "anchors": ["kasa/smart/modules/firmware.py Firmware.update"]}
{"id": "C58", "title": "Device type detection is total and deterministic", "statement": "Each system info maps to exactly one device class, unknown ones raise a library error.", "quantifier": "all system info mappings", "why_tests_cant": "all mappings", "anchors": ["kasa/iot/iotdevice.py _get_device_type_from_sys_info", "kasa/smart/smartdevice.py _get_device_type_from_components", "kasa/smartcam/smartcamdevice.py _get_device_type_from_sysinfo"]}
{"id": "C59", "title": "Child lookup finds the right child or nothing", "statement": "Looking up a child by id or alias returns a child with that id or alias if one exists and nothing otherwise; lookup by index returns that child exactly for valid indexes.", "quantifier": "all child lists and names", "why_tests_cant": "all lists", "anchors": ["kasa/device.py Device.get_child_device/get_plug_by_name/get_plug_by_index"]}
{"id": "C60", "title": "Camera child replies are matched to their methods", "statement": "Each method of a camera child query receives the reply to that method, whatever order and number of replies the hub returns.", "quantifier": "all request and reply lists", "why_tests_cant": "reply shapes", "anchors": ["kasa/protocols/smartcamprotocol.py _ChildCameraProtocolWrapper._query"]}
{"id": "C61", "title": "A stored KLAP credentials hash is as good as the credentials", "statement": "The credentials hash a KLAP transport exposes can be stored and used instead of the credentials: a transport built from it accepts exactly the same servers with the same session keys, and exposes the same hash again.", "quantifier": "all credentials, both protocol versions, all server replies", "why_tests_cant": "all credentials and replies", "anchors": ["kasa/transports/klaptransport.py KlapTransport.__init__/credentials_hash"]}
{"id": "C62", "title": "Failures of a KLAP send are library exceptions", "statement": "Whatever the device answers, a KLAP send either returns the decoded answer or raises one of the library's exceptions (given an HTTP client that raises only those).", "quantifier": "all histories and all replies", "why_tests_cant": "arbitrary reply bytes, cookies and counters", "anchors": ["kasa/transports/klaptransport.py KlapTransport.send/perform_handshake, KlapEncryptionSession.encrypt"]}
{"id": "C63", "title": "A camera only gets credentials and requests in the right order", "statement": "On a camera (SSL-AES) transport, whatever the history: the digest of the password is only posted to a device that has just proved it knows the password, for the nonce of that greeting; the weaker MD5 login is only posted to a device that asked for it; a request is only posted once per send, encrypted under the session's keys with the session's token and the next number when the session is an encrypted one, in the clear only under an accepted less secure login. A live session is used without a new handshake, and the device's answer decides the outcome.", "quantifier": "all histories of sends, replies and resets, all configurations", "why_tests_cant": "histories of logins and refusals are unbounded", "anchors": ["kasa/transports/sslaestransport.py SslAesTransport.send/perform_handshake1/perform_handshake2/send_secure_passthrough/send_unencrypted/try_perform_less_secure_login"]}
{"id": "C64", "title": "Trying every connection tries each combination once and leaves none open", "statement": "Connecting by trying all combinations attempts no (protocol, transport, class, https) combination twice, covers every combination of the main families that has an exact protocol and class, and both login versions, stops at the first success and returns that device, returns nothing only if every attempt failed, and closes the protocol of every attempt exactly once.", "quantifier": "all outcomes of all attempts, all iteration orders of the families", "why_tests_cant": "the product of outcomes and iteration orders is unbounded", "anchors": ["kasa/discover.py Discover.try_connect_all", "kasa/device_factory.py _connect/get_protocol/get_device_class_from_family"]}
{"id": "C65", "title": "The device class and the protocol of a connection belong together", "statement": "Whenever connecting chooses a device class and a protocol for connection parameters, the class is the one that speaks that protocol: camera class with camera protocol, SMART class with SMART protocol, legacy class with legacy protocol.", "quantifier": "all connection parameters", "why_tests_cant": "product of all parameters", "anchors": ["kasa/device_factory.py connect/get_protocol/get_device_class_from_family"]}
{"id": "C66", "title": "Discovery sends a bounded number of rounds and stops when the target answered", "statement": "One discovery sends at most the requested number of rounds, sends each of them when it is due as long as the target host has not been heard from, sends none after that, and the search for a single host is called off early only when an answer of that host was recorded.", "quantifier": "all sequences of datagrams and send rounds", "why_tests_cant": "interleavings of datagrams and send rounds are unbounded", "anchors": ["kasa/discover.py _DiscoverProtocol.do_discover/_handle_discovered_event"]}
{"id": "C67", "title": "A discovered device carries the caller's settings and can be talked to", "statement": "Every device reported by discovery is addressed to the host that answered, carries the caller's credentials, timeout and port, and has the protocol its connection parameters select.", "quantifier": "all replies and options", "why_tests_cant": "all replies", "anchors": ["kasa/discover.py _get_device_instance/_get_device_instance_legacy/datagram_received"]}
{"id": "C68", "title": "HTTP sessions are owned by exactly one side", "statement": "A session supplied by the caller is used for every request and never closed by the library; otherwise the library makes its own session, has at most one open at any time, closes each of them exactly once and has none open after close.", "quantifier": "all sequences of requests and closes", "why_tests_cant": "histories", "anchors": ["kasa/httpclient.py HttpClient.client/close"]}
{"id": "C69", "title": "A failed first update can be repeated", "statement": "When the first update of a SMART device succeeds in negotiating, the device has the modules its components call for; when it fails, a later successful update gives it those modules as well.", "quantifier": "all failure points and all later histories", "why_tests_cant": "crash points", "anchors": ["kasa/smart/smartdevice.py SmartDevice.update/_negotiate"]}
{"id": "C70", "title": "Module data stay available between updates", "statement": "Once a module's data could be read, they can be read after every later update or setter call, unless the device answered one of the module's own methods with an error.", "quantifier": "all modules, histories and replies", "why_tests_cant": "histories", "anchors": ["kasa/smart/smartdevice.py SmartDevice._modular_update", "kasa/smart/smartchilddevice.py SmartChildDevice._update", "kasa/smart/smartmodule.py SmartModule.data"]}
{"id": "C71", "title": "An unreachable child does not break its hub", "statement": "Updating a camera hub creates a device for every newly listed child of a known category and for no other; a child that cannot be reached does not make the hub's update fail.", "quantifier": "all child lists and failures", "why_tests_cant": "failure points", "anchors": ["kasa/smartcam/smartcamdevice.py SmartCamDevice._try_create_child/_initialize_smart_child"]}
{"id": "C72", "title": "SMART light commands are validated", "statement": "Every SMART light command sends only valid hue, saturation, brightness and temperature for the device; invalid values raise and nothing is sent.", "quantifier": "all integers and devices", "why_tests_cant": "Unit tests try a few bad values on the fixtures' models; the range check must hold for every value, including those passed as part of another command.", "anchors": ["kasa/smart/modules/brightness.py:Brightness.set_brightness", "kasa/smart/modules/color.py:Color.set_hsv", "kasa/smart/modules/colortemperature.py:ColorTemperature.set_color_temp", "kasa/smart/modules/light.py:Light.set_state"]}
{"id": "C73", "title": "Dimmer configuration stays within bounds", "statement": "Fade and gentle times, the minimum dimming level and the ramp rate of a dimmer are sent as given when within the documented bounds (times in whole milliseconds); otherwise the call raises and nothing is sent.", "quantifier": "all integers and durations", "why_tests_cant": "Boundaries and sub-millisecond durations are unbounded families of inputs.", "anchors": ["kasa/iot/modules/dimmer.py:Dimmer.set_fade_off_time", "kasa/iot/modules/dimmer.py:Dimmer.set_threshold_min", "kasa/iot/modules/dimmer.py:Dimmer.set_ramp_rate"]}
{"id": "C74", "title": "Thermostat commands stay within bounds", "statement": "A target temperature is sent exactly when it lies within the range the device reports (switching frost protection off if the device has it), an offset exactly when within [-10,10]; other values raise and nothing is sent; switching the thermostat and reading its state agree.", "quantifier": "all numbers and ranges", "why_tests_cant": "Bounds are reported by the device and values are arbitrary numbers.", "anchors": ["kasa/smart/modules/temperaturecontrol.py:TemperatureControl.set_target_temperature", "kasa/smart/modules/temperaturecontrol.py:TemperatureControl.set_temperature_offset", "kasa/smart/modules/temperaturecontrol.py:TemperatureControl.set_state"]}
{"id": "C75", "title": "Vacuum commands fit the state", "statement": "Starting a paused vacuum resumes it and otherwise starts cleaning; pausing one on its way home stops the return and otherwise pauses; a fan speed that is set is the one read back; unknown speeds raise and nothing is sent.", "quantifier": "all states and names", "why_tests_cant": "The command depends on the state decoded from arbitrary replies.", "anchors": ["kasa/smart/modules/clean.py:Clean.start", "kasa/smart/modules/clean.py:Clean.pause", "kasa/smart/modules/clean.py:Clean.set_fan_speed_preset"]}
{"id": "C76", "title": "Selecting a light strip effect makes it the reported effect", "statement": "Selecting a listed effect sends it with the requested brightness and transition and the strip then reports it; Off, or a brightness of zero, disables the effect and the strip reports Off; other names raise and nothing is sent.", "quantifier": "all names, brightnesses, transitions and current effects", "why_tests_cant": "The round trip must hold from every current state, including custom effects.", "anchors": ["kasa/smart/modules/lightstripeffect.py:LightStripEffect.set_effect", "kasa/smart/modules/lightstripeffect.py:LightStripEffect.set_brightness", "kasa/iot/modules/lighteffect.py:LightEffect.set_effect"]}
{"id": "C77", "title": "Legacy LED and motion settings mean what they say", "statement": "Switching the indicator LED on or off is what is read back as the LED state; enabling motion detection, choosing a range by name in any case, or giving a threshold sends exactly that setting, and an unknown range name is refused without sending anything.", "quantifier": "all settings and range names", "why_tests_cant": "all strings and values", "anchors": ["kasa/iot/modules/led.py Led", "kasa/iot/modules/motion.py Motion.set_range/_parse_range_value/set_threshold/ranges"]}
{"id": "C78", "title": "Device info splits versions, models and regions faithfully", "statement": "The firmware version and build reported for a device, joined by a space, are the text the device gave, and the version holds no space; the model name and region are the parts outside and inside the parentheses; a camera child described by its hub gets the same info as when it describes itself.", "quantifier": "all device info texts", "why_tests_cant": "all strings", "anchors": ["kasa/iot/iotdevice.py IotDevice._get_device_info", "kasa/smart/smartdevice.py SmartDevice._get_device_info", "kasa/smartcam/smartcamdevice.py SmartCamDevice._get_device_info", "kasa/smartcam/smartcamchild.py SmartCamChild._get_device_info"]}
{"id": "C79", "title": "Camera info keys are renamed without loss", "statement": "Every value of a camera's basic info is available under the name SMART devices use for it, and no two values end up under one name unless the camera already used that name.", "quantifier": "all info mappings", "why_tests_cant": "all mappings", "anchors": ["kasa/smartcam/smartcamdevice.py SmartCamDevice._map_info", "kasa/smartcam/smartcamchild.py SmartCamChild._map_child_info_from_parent"]}
{"id": "C80", "title": "Camera queries answer every method and return whole lists", "statement": "Asking a camera for one or several methods at once returns one entry for exactly each method asked for, holding that method's own answer, however the camera splits, orders or omits replies; lists are complete however many pages the camera gives them in; a lone failing method raises the exception of its code.", "quantifier": "all requests, batch sizes, page sizes and truthful cameras", "why_tests_cant": "all devices, batchings and pagings", "anchors": ["kasa/protocols/smartcamprotocol.py SmartCamProtocol._execute_query/_get_list_request/_handle_response_error_code", "kasa/protocols/smartprotocol.py SmartProtocol._execute_multiple_query/_handle_response_lists"]}
{"id": "C81", "title": "Single camera requests return exactly the section asked for", "statement": "Reading, writing or triggering one section of a camera sends exactly that section and returns it, nothing, or the whole reply respectively; a request given by name addresses the section its name spells; an error or a missing section in the reply is a device error.", "quantifier": "all sections, names and replies", "why_tests_cant": "all strings and replies", "anchors": ["kasa/protocols/smartcamprotocol.py SmartCamProtocol._get_smart_camera_single_request/_make_smart_camera_single_request/_make_snake_name/_execute_query"]}
{"id": "C82", "title": "Camera switches read back as set and leave others alone", "statement": "Switching motion, person, pet, tamper or baby cry detection, the indicator LED or the privacy mask of a camera sends one write of that setting; on a camera that keeps what it is sent, the next update reads exactly what was set, and every other switch reads as before.", "quantifier": "all cameras, settings and switches", "why_tests_cant": "all stored settings and reply shapes", "anchors": ["kasa/smartcam/modules/motiondetection.py", "kasa/smartcam/modules/persondetection.py", "kasa/smartcam/modules/petdetection.py", "kasa/smartcam/modules/tamperdetection.py", "kasa/smartcam/modules/babycrydetection.py", "kasa/smartcam/modules/led.py", "kasa/smartcam/modules/lensmask.py", "kasa/smartcam/smartcammodule.py SmartCamModule.query/data"]}
{"id": "C83", "title": "A camera is on exactly when its privacy mask is off", "statement": "Turning a camera with a privacy mask on or off sets the mask to the opposite, and the reported power state after the next update is what was asked for; a device without mask or camera is always on and is sent nothing.", "quantifier": "all cameras", "why_tests_cant": "all stored settings", "anchors": ["kasa/smartcam/modules/camera.py Camera.is_on/set_state", "kasa/smartcam/smartcamdevice.py SmartCamDevice.is_on/set_state"]}
{"id": "C84", "title": "Camera siren commands are validated", "statement": "A siren duration, volume or sound is sent exactly when it is within bounds or offered by the camera, and otherwise rejected without sending anything; playing sends the overrides before starting; what was set is read back.", "quantifier": "all durations, volumes and sounds", "why_tests_cant": "unbounded arguments", "anchors": ["kasa/smartcam/modules/alarm.py Alarm._validate_and_get_config/set_alarm_sound/set_alarm_volume/set_alarm_duration/play/stop"]}
{"id": "C85", "title": "Stream URLs carry the right credentials unambiguously", "statement": "A camera's stream URL names its host and stream, and taking the URL apart gives back exactly the user name and password to be used, whatever characters they contain: those given, else those configured, else those in the stored hash; without complete credentials, behind a hub or for an unknown resolution there is no URL.", "quantifier": "all credentials, hosts and configurations", "why_tests_cant": "all strings", "anchors": ["kasa/smartcam/modules/camera.py Camera.stream_rtsp_url/_get_credentials/onvif_url"]}
{"id": "C86", "title": "Pairing returns exactly the devices that became children", "statement": "Pairing asks the hub to scan, waits, asks for what was found, adds exactly that and updates, in this order and nothing else; it returns the detected devices that are children afterwards; unpairing removes only the device named.", "quantifier": "all hubs, detected devices and failures", "why_tests_cant": "all replies and failure points", "anchors": ["kasa/smart/modules/childsetup.py ChildSetup.pair/unpair/_add_devices/_get_detected_devices", "kasa/smartcam/modules/childsetup.py ChildSetup.pair/unpair/_add_devices"]}
{"id": "C87", "title": "Camera motors and battery report faithfully", "statement": "Panning or tilting by a step sends exactly that step in one direction, the opposite action its negative; a battery camera is reported as charging exactly when it says so.", "quantifier": "all steps and battery states", "why_tests_cant": "all integers and readings", "anchors": ["kasa/smartcam/modules/pantilt.py PanTilt", "kasa/smartcam/modules/battery.py Battery.battery_charging"]}
{"id": "C88", "title": "A device has exactly the modules it offers", "statement": "After initialisation a SMART or camera device has a module exactly when the device advertises the module's component (or reports its field) and reports what the module needs; sockets of a strip leave the device, time, firmware and cloud modules to the strip, children of a hub leave the time to the hub; light and thermostat are there exactly when their parts are; the time module comes first.", "quantifier": "all component lists, device infos and parents", "why_tests_cant": "all combinations of components and reported fields", "anchors": ["kasa/smart/smartdevice.py SmartDevice._initialize_modules", "kasa/smartcam/smartcamdevice.py SmartCamDevice._initialize_modules", "kasa/smart/modules/*.py _check_supported"]}
{"id": "C89", "title": "After a successful update every feature is available", "statement": "Once an update has succeeded, the device offers all its own features and those of all its modules, each under its own identifier, whatever earlier updates did.", "quantifier": "all modules, identifiers and update histories", "why_tests_cant": "all failure points and histories", "anchors": ["kasa/smart/smartdevice.py SmartDevice.update/_initialize_features", "kasa/smart/smartchilddevice.py SmartChildDevice._update", "kasa/iot/iotdevice.py IotDevice.update/_initialize_features", "kasa/device.py Device._add_feature"]}
{"id": "C90", "title": "Feature lookup tells what a module supports", "statement": "Asking a module for the feature behind an attribute gives the feature the attribute is bound to if the module has it and nothing if not, whenever it is asked; attributes that do not exist or are not bound to a feature raise a library error.", "quantifier": "all modules, attributes and histories of questions", "why_tests_cant": "all orders of questions and updates", "anchors": ["kasa/module.py Module.has_feature/get_feature", "kasa/module.py _get_bound_feature"]}
{"id": "C91", "title": "Fan speed is checked, applied and read back", "statement": "Asking a fan for level 0 to 4 sends exactly one command; on a device that keeps what it is sent the level then reads as asked, and nothing but power and level changes. Any other level is refused with nothing sent. Level 0 switches the fan off without losing its level, and a fan that is off reads 0. Sleep mode reads back as set.", "quantifier": "every level, every previous device state, every reply", "why_tests_cant": "Tests try a few levels on fixture devices; that every level is either applied faithfully or refused before anything is sent holds for all integers and states.", "anchors": ["kasa/smart/modules/fan.py: Fan.fan_speed_level, Fan.set_fan_speed_level, Fan.sleep_mode, Fan.set_sleep_mode"]}
{"id": "C92", "title": "Vacuum accessories are set by name and read back", "statement": "Mop water level, dust-bin mode and speaker volume: a valid value sends exactly one command, reads back as set on a device that keeps what it is sent, and leaves every other reported setting alone; switching the dust bin Off keeps the stored mode. An unknown name or a volume outside 0-100 is refused with nothing sent.", "quantifier": "every name, volume, and previously reported settings", "why_tests_cant": "The settings sent are a copy of whatever the device last reported, with any number of fields; tests hold one report.", "anchors": ["kasa/smart/modules/mop.py: Mop", "kasa/smart/modules/dustbin.py: Dustbin", "kasa/smart/modules/speaker.py: Speaker"]}
{"id": "C93", "title": "Auto-off, LED, lock and frost settings change only what was asked", "statement": "Each switch sends one command; on a device that keeps what it is sent the setting reads back as asked and all other fields stay, so enabling auto-off keeps the delay and changing the delay keeps the switch. The auto-off moment is reported exactly while the timer runs, as now plus the remaining time. The frost protection minimum temperature can be read.", "quantifier": "every previous state, every value", "why_tests_cant": "Round trips over arbitrary reported states; fixtures hold one state each and no test reads the frost minimum.", "anchors": ["kasa/smart/modules/autooff.py: AutoOff", "kasa/smart/modules/led.py: Led", "kasa/smart/modules/childlock.py: ChildLock", "kasa/smart/modules/childprotection.py: ChildProtection", "kasa/smart/modules/frostprotection.py: FrostProtection"]}
{"id": "C94", "title": "Sensor readings say what the device reports", "statement": "Overheating is reported exactly when the status is not normal, or as the older flag says; a device that offers overheat protection can always be asked. Low battery follows whichever field the device has and fails with a KasaException when there is none. Humidity and temperature warnings are raised exactly for a non-zero exception. Leak states map one to one, unknown ones are refused. The cloud connection is up exactly for status 0 and down when the query failed with a device error.", "quantifier": "every device info with these fields, every status value, every device error", "why_tests_cant": "The readings depend on which of several optional fields a firmware reports; fixtures cover a few combinations.", "anchors": ["kasa/smart/modules/overheatprotection.py: OverheatProtection.overheated", "kasa/smart/modules/batterysensor.py: BatterySensor.battery_low", "kasa/smart/modules/humiditysensor.py: HumiditySensor.humidity_warning", "kasa/smart/modules/temperaturesensor.py: TemperatureSensor.temperature_warning", "kasa/smart/modules/waterleaksensor.py: WaterleakSensor.status", "kasa/smart/modules/cloud.py: Cloud.is_connected"]}
{"id": "C95", "title": "The time of the last water leak can be read", "statement": "The time of the last leak alert is None if none was recorded and otherwise the recorded time.", "quantifier": "every water leak sensor, whatever its hub reports", "why_tests_cant": "Tests build the sensor as a stand-alone device; real sensors are children of a hub, for which a different set of modules is created.", "anchors": ["kasa/smart/modules/waterleaksensor.py: WaterleakSensor.alert_timestamp", "kasa/smart/smartdevice.py: SmartDevice._initialize_modules"]}
{"id": "C96", "title": "A SMART device's clock is read and set right", "statement": "The time read is the reported instant in the reported region's zone, or at the reported offset when the region is unknown or missing. Setting the time sends one command and sets that instant to the second, whatever zone the time is given in, or the device's own when none is given; the time then reads back with the same wall clock and zone as given. The time of a device is its own clock's, else its parent's, else the computer's.", "quantifier": "every instant, zone of the time zone database (including repeated and skipped hours), fixed offset, previous clock settings", "why_tests_cant": "Zones and instants are unbounded, with daylight saving changes; tests use the host's database and a few dates.", "anchors": ["kasa/smart/modules/time.py: Time._post_update_hook, Time.time, Time.set_time", "kasa/cachedzoneinfo.py: CachedZoneInfo", "kasa/smart/smartdevice.py: SmartDevice.time"]}
{"id": "C97", "title": "A camera's clock is read and set right", "statement": "The time read is the reported instant in the reported zone, or at the offset at the end of the zone's description when the zone is unknown. Setting the time sends the instant to the second, and then the zone if it is one of the database, after which the time reads back as given; if the first command fails nothing more is sent. The local time sent along is the local time of the camera.", "quantifier": "every instant, zone, offset of up to a day, prefix of the description, zone of the computer", "why_tests_cant": "The effect of the computer's own time zone is invisible when tests run in UTC or with one zone.", "anchors": ["kasa/smartcam/modules/time.py: Time._post_update_hook, Time.set_time"]}
{"id": "C98", "title": "A vacuum only gets requests inside a live login session", "statement": "On the vacuum transport, whatever the history of sends, resets and replies, a request is posted at most once per send, under the token of the latest accepted login, no later than a day less twenty minutes after it and with no refusal or reset since; otherwise the send logs in first, with the default credentials only if the user's were refused as wrong. With a live or accepted login the send gives what the reply says, each known error code as its own kind of exception; a refused login fails with the refusal. Failures are library exceptions.", "quantifier": "every history of sends and resets, every reply, clock and HTTP failure", "why_tests_cant": "Sessions expire, are refused and are reset in any order over days; tests script a few exchanges.", "anchors": ["kasa/transports/ssltransport.py: SslTransport.send, SslTransport.perform_login, SslTransport.try_login, SslTransport.send_request, SslTransport.reset"]}
{"id": "C99", "title": "Legacy camera requests survive their encodings", "statement": "Whatever the request, the camera transport posts one form field whose value contains no separator and from which undoing percent encoding, base64 and the XOR cipher gives back the request; an encrypted reply gives its JSON. Every failure is reported as one to be retried, except cancellation; a request too long to frame is not sent.", "quantifier": "every request of any bytes, every reply, status and HTTP failure", "why_tests_cant": "Percent encoding matters only for byte values that turn up in some ciphertexts; tests encode one request.", "anchors": ["kasa/transports/linkietransport.py: LinkieTransportV2.send, LinkieTransportV2._execute_send"]}
{"id": "C100", "title": "Applying a light preset makes it the current one", "statement": "Setting a listed light preset turns the light on with exactly the values of that preset; once the light shows them, the preset reported is the first listed one that the light cannot tell apart from it, so that very preset if its values are unique. A name that is not listed is refused without sending anything, and choosing \"Not set\" leaves no preset current.", "quantifier": "all preset lists a device may report, all names, colour / colour temperature capabilities, SMART and legacy lights", "why_tests_cant": "Tests apply one preset of a recorded device; duplicates, effects among the presets and missing values depend on what the user stored.", "anchors": ["kasa/smart/modules/lightpreset.py:LightPreset.preset", "kasa/smart/modules/lightpreset.py:LightPreset.set_preset", "kasa/iot/modules/lightpreset.py:LightPreset.preset", "kasa/iot/modules/lightpreset.py:LightPreset.set_preset"]}
{"id": "C101", "title": "Concurrent queries on one legacy device do not disturb each other", "statement": "However many tasks query one legacy device object at the same time, and however their steps, the device's answers, the arrival of bytes, timeouts, connection errors, cancellations and disconnect() calls are scheduled: a query that succeeds returns what the device answered to that very query; at most one query talks to the device at any time, and the attempts of one query (at most retry_count + 1) are never interleaved with another's; cancelling a query ends it at once, without effect on the others if it was still waiting, and with the connection closed and the way free for the next one otherwise; and even if the device never reacts again, the query that is under way ends and lets the next one start.", "quantifier": "all schedules of any number of queries, answers, partial deliveries, faults, cancellations and disconnects", "why_tests_cant": "the number of interleavings is unbounded; unit tests exercise a handful of them", "anchors": ["kasa/protocols/iotprotocol.py IotProtocol.query/_query/close", "kasa/transports/xortransport.py XorTransport.send/_connect/_execute_send/close/reset"]}
{"id": "C102", "title": "Disconnecting leaves no connection to a legacy device", "statement": "At no point of any schedule is more than one connection to the device open, and once disconnect() has returned and no new query is made, no connection is open.", "quantifier": "all schedules of queries and disconnects", "why_tests_cant": "depends on what is under way when disconnect() is called", "anchors": ["kasa/device.py Device.disconnect", "kasa/protocols/iotprotocol.py IotProtocol.close", "kasa/transports/xortransport.py XorTransport.close/send"]}
{"id": "C103", "title": "Concurrent queries through one device object are as if made one at a time", "statement": "For a device object of either protocol family, its children included, every schedule of any number of concurrent queries (with any cancellations, and with the device and the clock doing anything meanwhile) leaves the device, the session and every caller's result as if the queries had been made one at a time, in the order in which they ended, which respects the order of queries that do not overlap; a query cancelled while still waiting has had no effect.", "quantifier": "all schedules, all query bodies, all shared states", "why_tests_cant": "the number of interleavings is unbounded", "anchors": ["kasa/protocols/smartprotocol.py SmartProtocol.query/_ChildProtocolWrapper.query", "kasa/protocols/smartcamprotocol.py _ChildCameraProtocolWrapper.query", "kasa/protocols/iotprotocol.py IotProtocol.query"]}
{"id": "C104", "title": "Names, networks and credentials cross unchanged", "statement": "A name set on a device is the name shown once the device has kept it; the network name shown is the device's; a Wi-Fi scan lists exactly the networks the device reports, in its order, with their names, whatever those names are; and new account credentials are sent in a form that gives back exactly the user name and password entered.", "quantifier": "all names, network lists, passwords and replies", "why_tests_cant": "texts and network names are arbitrary byte strings; the fixtures hold a few ASCII names", "anchors": ["kasa/smart/smartdevice.py SmartDevice.alias/set_alias/ssid/wifi_scan/update_credentials", "kasa/iot/iotdevice.py IotDevice.alias/set_alias/wifi_scan"]}
{"id": "C105", "title": "Joining a network is asked once and with everything needed", "statement": "wifi_join on a device without credentials raises an authentication error and sends nothing; otherwise exactly one request with the account, the network and the device's clock is sent and never repeated, losing the device while it changes networks is not an error, and what the device refuses is raised. A legacy device is asked through its first network service, and through the other exactly when the first fails with a library error.", "quantifier": "all credentials, networks, replies and failures", "why_tests_cant": "the device vanishes half way in reality, which a fake device never does", "anchors": ["kasa/smart/smartdevice.py SmartDevice.wifi_join", "kasa/iot/iotdevice.py IotDevice.wifi_join"]}
{"id": "C106", "title": "Location, signal and hardware facts are the reported ones", "statement": "A device's location is the one it reports, in degrees whichever unit it uses, and unknown when it reports none; the signal strength is the reported number or nothing; the hardware facts are exactly the reported ones among the documented fields; before the first update such a fact is the discovered one or a library error.", "quantifier": "all reported system information, before and after the first update", "why_tests_cant": "devices report every combination of fields", "anchors": ["kasa/iot/iotdevice.py IotDevice.location/rssi/hw_info/requires_update", "kasa/smart/smartdevice.py SmartDevice.location/rssi"]}
{"id": "C107", "title": "A KLAP device that knows the credentials is talked to as if directly", "statement": "With a device that speaks the protocol and was set up with credentials the client accepts, sending requests through the encrypted transport has, as long as nothing goes wrong, exactly the effects and answers of handing the requests to the device directly and in order, over any number of sessions, expiries and resets; whatever goes wrong (requests or answers lost, sessions forgotten, clocks anywhere) a send has the effect of its request at most once and any answer it returns is the device's answer to that very request; and when the trouble is over, the first send succeeds or is told to try again without effect, and then the next one succeeds.", "quantifier": "all devices, request sequences, seeds, clocks, losses, restarts and resets", "why_tests_cant": "needs both sides of the protocol, all interleavings of losses and expiry, and arbitrary device behaviour; tests replay recorded answers", "anchors": ["kasa/transports/klaptransport.py KlapTransport.send/perform_handshake/KlapEncryptionSession"]}
{"id": "C108", "title": "A device behind secure passthrough is talked to as if directly", "statement": "With a device that speaks the protocol and accepts the user's login or the default one, sending requests through the passthrough transport has, as long as nothing goes wrong, exactly the effects and answers of handing the requests to the device directly and in order, over any number of handshakes, logins, expiries and resets; whatever goes wrong (requests or answers lost, sessions forgotten, logins refused, clocks anywhere) a send has the effect of its request at most once and any answer it returns is the device's answer to that very request; and after any trouble a reset of the transport, which every retry makes, restores the first statement.", "quantifier": "all devices, request sequences, session keys, tokens, clocks, losses, restarts and resets", "why_tests_cant": "needs both sides of the protocol, all interleavings of losses, expiry and logins, and arbitrary device behaviour; tests replay recorded answers", "anchors": ["kasa/transports/aestransport.py AesTransport.send/perform_handshake/perform_login/try_login/send_secure_passthrough"]}
{"id": "C109", "title": "An encrypted camera is talked to as if directly", "statement": "With a camera that speaks the encrypted protocol and was set up with the user's password and user name (or the default user name), sending requests through the transport has, as long as nothing goes wrong, exactly the effects and answers of handing the requests to the camera directly and in order, over any number of handshakes and resets; whatever goes wrong (requests or answers lost, sessions forgotten, greetings refused) a send has the effect of its request at most once and any answer it returns is the camera's answer to that very request; and after any trouble a reset of the transport, which every retry makes, restores the first statement.", "quantifier": "all cameras, request sequences, nonces, tokens, sequence numbers, losses, restarts and resets", "why_tests_cant": "needs both sides of the protocol, all interleavings of losses and restarts, and arbitrary camera behaviour; tests replay recorded answers", "anchors": ["kasa/transports/sslaestransport.py SslAesTransport.send/perform_handshake/perform_handshake1/perform_handshake2/send_secure_passthrough"]}
{"id": "C110", "title": "A whole query, from the protocol to the device and back, is a call of the device", "statement": "While network, sessions and credentials are fine, a program making any queries (protocol with batches, pages and retries, over KLAP, AES or the encrypted camera transport) gets exactly the results, sends exactly the requests and has exactly the effects it would have if the device was a function it called. Whatever goes wrong, each message takes effect at most once and in order, and a query that returns a result has as its last attempt exactly such a direct run.", "quantifier": "all devices (any state, any behaviour), all queries and retry counts, all histories before and between, every network fate of every post, every clock", "why_tests_cant": "Unit tests mock either the transport under a protocol or the HTTP client under a transport, on recorded devices; that the layers compose for every device and history is a statement over all of them.", "anchors": ["kasa/protocols/smartprotocol.py:SmartProtocol.query", "kasa/protocols/smartcamprotocol.py:SmartCamProtocol", "kasa/protocols/iotprotocol.py:IotProtocol.query", "kasa/transports/klaptransport.py:KlapTransport.send", "kasa/transports/aestransport.py:AesTransport.send", "kasa/transports/sslaestransport.py:SslAesTransport.send"]}
{"id": "C111", "title": "A vacuum is talked to as if directly", "statement": "With a vacuum that gives out a token at login, keeps sessions for a day and accepts the user's login or the default one, sending requests has, as long as nothing goes wrong, exactly the effects and answers of handing the requests to the device directly and in order (an error code in an answer becoming the documented exception), over any number of logins, expiries and resets; whatever goes wrong a send has the effect of its request at most once and any answer it returns is the device's answer to that very request; and after any trouble a reset of the transport, which every retry makes, restores the first.", "quantifier": "all devices, histories, network fates and clocks", "why_tests_cant": "needs a device with sessions that expire and are forgotten at every possible moment; the tests replay fixed replies", "anchors": ["kasa/transports/ssltransport.py SslTransport.send/perform_login/try_login/reset"]}
{"id": "C112", "title": "A legacy device on its TCP connection is talked to as if directly", "statement": "With a device that reads and writes length-prefixed obfuscated messages, sending requests has, as long as nothing goes wrong, exactly the effects and answers of handing the requests to the device directly and in order, over one connection or many; wherever a connection breaks (while connecting, at any byte of an answer, by cancellation) a send has the effect of its request at most once and any answer it returns is the device's answer to that very request, never the rest of an earlier one; and after any trouble the next send works without anybody doing anything about it.", "quantifier": "all devices, histories and points of failure", "why_tests_cant": "the byte at which a connection breaks is arbitrary and what matters is the whole later life of the client", "anchors": ["kasa/transports/xortransport.py XorTransport.send/_connect/_execute_send/reset, XorEncryption"]}
{"id": "C113", "title": "A legacy camera is talked to as if directly", "statement": "With a camera whose web server takes an obfuscated request in base64 in a form field, sending requests has, as long as nothing goes wrong, exactly the effects and answers of handing the requests to the camera directly and in order; whatever goes wrong a send has the effect of its request at most once and any answer it returns is the camera's answer to that very request; and after any trouble the next send works.", "quantifier": "all cameras, requests of any bytes, histories and network fates", "why_tests_cant": "escaping and encoding must be undone for every request text", "anchors": ["kasa/transports/linkietransport.py LinkieTransportV2.send/_execute_send", "kasa/transports/xortransport.py XorEncryption"]}
{"id": "C114", "title": "A whole query is a call of the device over every other transport too", "statement": "While network, sessions and credentials are fine, a program making any queries to a vacuum, to a legacy device on TCP or to a legacy camera gets exactly the results and has exactly the effects it would have if the device was a function it called. Whatever goes wrong, each message takes effect at most once and in order, and a query that returns a result has as its last attempt exactly such a direct run. With C110 this covers every combination of protocol and transport the library can choose.", "quantifier": "all devices, all queries and retry counts, all histories before and between, every network fate, every clock", "why_tests_cant": "that the layers compose for every device and history is a statement over all of them", "anchors": ["kasa/protocols/smartprotocol.py:SmartProtocol.query", "kasa/protocols/iotprotocol.py:IotProtocol.query", "kasa/transports/ssltransport.py:SslTransport.send", "kasa/transports/xortransport.py:XorTransport.send", "kasa/transports/linkietransport.py:LinkieTransportV2.send", "kasa/device_factory.py:get_protocol"]}
{"id": "C115", "title": "A child behind a hub is talked to as if directly", "statement": "A query to a child device is one message to its hub, addressed to that child; the child acts exactly once on each requested method, in order, no other child acts, and the result is what calling the child gives: the value or code of every method, or the error of a single method raised as its exception. This holds for every sequence of queries to a hub and any of its children, and, while network and sessions are healthy, over every transport hubs are reached by.", "quantifier": "all hubs that relay messages, all children, all programs of queries, all transports of hubs", "why_tests_cant": "ranges over all hubs, histories and programs", "anchors": ["kasa/protocols/smartprotocol.py _ChildProtocolWrapper", "kasa/protocols/smartcamprotocol.py _ChildCameraProtocolWrapper", "kasa/protocols/smartprotocol.py SmartProtocol.query"]}
{"id": "C116", "title": "Queries to a child keep the promises of queries", "statement": "A query to a child retries passing errors of the child and returns lists completely, as a query to a device does.", "quantifier": "all children and queries", "why_tests_cant": "error and paging histories", "anchors": ["kasa/protocols/smartprotocol.py _ChildProtocolWrapper._query"]}
{"id": "C117", "title": "A stored credentials hash is as good as the credentials", "statement": "A device set up with credentials, or with a stored hash, reports a credentials hash; writing the configuration with that hash and reading it back gives a configuration without credentials with which, over every transport, the library logs in with exactly the same secrets, reports the same hash again and (for cameras) streams with the same account.", "quantifier": "all transports, credentials, hashes and configurations", "why_tests_cant": "a round trip through hashing, base64, JSON and the configuration dictionary for every credential text", "anchors": ["kasa/transports/aestransport.py AesTransport.__init__/credentials_hash", "kasa/transports/ssltransport.py SslTransport.__init__/credentials_hash", "kasa/transports/sslaestransport.py SslAesTransport.__init__/credentials_hash", "kasa/transports/klaptransport.py KlapTransport.__init__/credentials_hash", "kasa/transports/linkietransport.py LinkieTransportV2.credentials_hash", "kasa/deviceconfig.py DeviceConfig.to_dict_control_credentials", "kasa/smartcam/modules/camera.py Camera._get_credentials"]}
{"id": "C118", "title": "A login carries the account that was given", "statement": "The login request of a device holds the account given to the library, in the form its login version asks for; credentials that are not blank take precedence over a stored hash; a hash that cannot be read is refused, not taken for no credentials. The legacy cameras, which have a fixed factory account, are always sent that one.", "quantifier": "all accounts, login versions and hashes", "why_tests_cant": "for every credential text and hash", "anchors": ["kasa/transports/aestransport.py AesTransport._get_login_params/hash_credentials", "kasa/transports/ssltransport.py SslTransport._get_login_params/hash_credentials", "kasa/transports/sslaestransport.py SslAesTransport.__init__"]}
{"id": "C119", "title": "Discovery datagrams are read and encrypted answers understood", "statement": "Every discovery sends a datagram in which a legacy device reads the request for its system information, and one with the right version, size and checksum that offers a public key; in a process with any number of discoveries, an answer to any of them, encrypted for the key it offered, gives what the device wrote; what cannot be decrypted never loses the device.", "quantifier": "all random bytes, key pairs, histories of discoveries and answers", "why_tests_cant": "the checksum and size must be right for every payload; answers arrive after other discoveries have started", "anchors": ["kasa/discover.py _AesDiscoveryQuery.generate_query", "kasa/discover.py _DiscoverProtocol.do_discover", "kasa/discover.py Discover._decrypt_discovery_data", "kasa/discover.py Discover._get_device_instance", "kasa/transports/aestransport.py KeyPair.decrypt_discovery_key"]}
{"id": "C120", "title": "The handshake key pair is kept", "statement": "Over any number of handshakes, and of times the configuration is stored and a device is made from it again, every handshake request offers the same public key and answers sealed for it can be opened at any later time; the request has the length the header declares.", "quantifier": "all histories of handshakes, answers and storing; all key pairs", "why_tests_cant": "needs histories across processes and every key", "anchors": ["kasa/transports/aestransport.py AesTransport.__init__/_generate_key_pair_payload/perform_handshake, KeyPair", "kasa/deviceconfig.py DeviceConfig.aes_keys"]}
{"id": "C121", "title": "Lights read back as they were set", "statement": "After any sequence of successful calls switching a light on or off, setting its brightness, colour, colour temperature or whole state, followed by an update, is_on, brightness, hsv and color_temp report exactly what the calls asked for, the values no call mentioned being unchanged. Brightness zero switches off and keeps the brightness for the next time.", "quantifier": "all sequences of calls, all values, all bulbs, light strips, dimmers, plugs and SMART lights, whether on or off", "why_tests_cant": "commands and readings are separate code with different field names per device kind, and while off the values are reported elsewhere; every pair of command and reading in every history has to agree", "anchors": ["kasa/iot/iotbulb.py: light_state, is_on, _hsv, _color_temp, _brightness, _set_light_state", "kasa/iot/iotdimmer.py: _brightness, turn_on, turn_off, set_dimmer_transition", "kasa/iot/iotplug.py: is_on, turn_on, turn_off", "kasa/smart/smartdevice.py: is_on, set_state", "kasa/smart/modules/brightness.py, color.py, colortemperature.py"]}
{"id": "C122", "title": "A saved light state can be restored", "statement": "The state a light module reports after an update can be handed to set_state at any later time: the call is accepted and, after the next update, the module reports that same state, whatever the light was set to in between.", "quantifier": "all light states a device can report, all states in between, all kinds of lights", "why_tests_cant": "reading a state and setting one go through different code for each kind of device; only some states are tried in tests", "anchors": ["kasa/iot/modules/light.py: Light._post_update_hook, Light.set_state", "kasa/smart/modules/light.py: Light._post_update_hook, Light.set_state"]}
{"id": "C123", "title": "The command line tool uses the device its options name, or refuses", "statement": "For every combination of options: contradictory ones end the tool with an error before anything is sent; otherwise every request goes to the host, broadcast address or name given, with the account, port, timeouts and connection parameters given. A command runs at most once, on the device the options name, after a successful update unless it sends raw requests, and the device is disconnected afterwards whatever the command does; when the tool ends normally every device it used has been disconnected, and nothing it did failed except that discovery leaves out devices that refuse the login.", "quantifier": "all option combinations and all network behaviours", "why_tests_cant": "the options interact; all combinations and all outcomes of every network operation cannot be enumerated", "anchors": ["kasa/cli/main.py:cli", "kasa/cli/discover.py:_discover", "kasa/cli/discover.py:_close_protocols", "kasa/cli/discover.py:detail"]}
{"id": "C124", "title": "The options shown by discover config reconnect", "statement": "When `discover config` finds a way to connect to a host, typing in the options it prints, with the same host, port, timeout and account, makes the tool connect with exactly the connection parameters that worked.", "quantifier": "all hosts, network behaviours and iteration orders of the candidate families", "why_tests_cant": "ranges over which of the candidates works and the iteration order of a set", "anchors": ["kasa/cli/discover.py:config", "kasa/cli/main.py:cli", "kasa/discover.py:Discover.try_connect_all"]}
{"id": "C125", "title": "A device is found by its name", "statement": "Looking up a device by name returns a device that answered, could be read and has that name (ignoring case); if such a device answers in one of the attempts asked for, one is found; if none does, the look-up ends without a device.", "quantifier": "all names, numbers of attempts and histories of discovery answers", "why_tests_cant": "ranges over answer histories of all lengths", "anchors": ["kasa/cli/discover.py:find_dev_from_alias"]}
{"id": "C126", "title": "Editing a light preset changes exactly that preset", "statement": "`kasa light presets modify INDEX` with at least one value saves once, under the name of the preset with that index, that preset with the given values in place of those it has and all else unchanged; the index sent to the light is INDEX. An index without a preset, or no value, is refused and nothing is saved.", "quantifier": "every list of presets, index and combination of values", "why_tests_cant": "The tests patch one preset on a fixture; a wrong pairing of names, indices and values shows only for other indices and combinations.", "anchors": ["kasa/cli/light.py:presets_modify", "kasa/iot/modules/lightpreset.py:save_preset", "kasa/smart/modules/lightpreset.py:save_preset"]}
{"id": "C127", "title": "Turn-on behaviour reads as reported and is written so that the bulb understands it", "statement": "The two turn-on behaviours of a legacy bulb read as the bulb reports them; the command changes the preset of the chosen behaviour only, and the request carries both behaviours under the names the bulb uses. Without a type nothing is changed, and asking to change without one is said so.", "quantifier": "every pair of behaviours and every combination of options", "why_tests_cant": "The tests compare the sent dictionary with the library's own serialisation, not with what the bulb reports.", "anchors": ["kasa/iot/iotbulb.py:TurnOnBehaviors", "kasa/iot/iotbulb.py:set_turn_on_behavior", "kasa/cli/light.py:turn_on_behavior"]}
{"id": "C128", "title": "Rules are listed in full and deleted by identity", "statement": "The rules of a schedule are exactly those the device lists, in order; deleting asks the device to delete the rule with the given id, or is refused if none is listed; a rule that cannot be read does not hide the others; listing rules succeeds.", "quantifier": "every list of rules with any optional fields present or absent", "why_tests_cant": "Fixtures contain one or two rules of the usual shape.", "anchors": ["kasa/iot/modules/rulemodule.py:rules", "kasa/cli/schedule.py:_schedule_list", "kasa/cli/schedule.py:delete_rule"]}
{"id": "C129", "title": "A command acts once, as asked, or refuses and does nothing", "statement": "The feature command sets at most one feature, one the device has, to the value the text stands for, and reads the device again; unpairing addresses only a paired device and reports success only when it is gone; the light commands send exactly the values given, once, if they are complete, in range and supported, and nothing otherwise; without a value they show the present one.", "quantifier": "every set of features, text, hub state and light, and every combination of arguments", "why_tests_cant": "Each test fixes one argument on one device.", "anchors": ["kasa/cli/feature.py:feature", "kasa/cli/hub.py:hub_unpair", "kasa/cli/light.py:brightness", "kasa/cli/light.py:temperature", "kasa/cli/light.py:effect", "kasa/cli/light.py:hsv"]}
{"id": "C130", "title": "Energy and usage statistics are of the period meant", "statement": "Asking a legacy device for the days of a month, or the months of a year, sends one request for exactly that period (the present one if left out) and gives, for exactly the days or months recorded, the recorded amount in the unit asked for. Today's and this month's consumption, read at any time after an update, are those of the day and month of reading as far as recorded.", "quantifier": "every history a meter can hold, every period and unit, every pair of times of update and reading, every time at which the clock is read", "why_tests_cant": "Tests run within one month, against a fixture with a frozen clock.", "anchors": ["kasa/iot/modules/usage.py:get_raw_daystat", "kasa/iot/modules/emeter.py:get_daily_stats", "kasa/iot/modules/emeter.py:consumption_today"]}
{"id": "C131", "title": "Statistics of a strip are the sums over its sockets", "statement": "For a power strip every day (month) of the statistics is the sum over the sockets of what they recorded, each socket being asked once for the same period; today's consumption is the sum; erasing reaches every socket or ends with the error of the first that fails.", "quantifier": "any number of sockets with any histories, any failing socket", "why_tests_cant": "The fixtures hold strips with a few sockets whose statistics have the same days.", "anchors": ["kasa/iot/iotstrip.py:StripEmeter", "kasa/iot/iotstrip.py:merge_sums"]}
{"id": "C132", "title": "The energy command does what its options say", "statement": "`kasa energy` with --year, --month or --erase asks the device for exactly that; statistics are erased only on request; contradictory options, or options the device has no statistics for, are refused.", "quantifier": "all combinations of options and capabilities", "why_tests_cant": "Tests try each option alone.", "anchors": ["kasa/cli/usage.py:energy"]}
{"id": "C133", "title": "The time commands leave the device's clock right or refuse", "statement": "After `kasa time sync` the device's clock is at the present second, whatever the zones of the computer and the device; `time set` sets exactly the given time and zone, and reads back; a zone that is unknown or does not fit, an impossible time or a declined question sets nothing; the user is asked only when there is no exact match.", "quantifier": "every instant, every time zone database, every zone of computer and device", "why_tests_cant": "Tests run in one zone with a frozen clock.", "anchors": ["kasa/cli/time.py:time_sync", "kasa/cli/time.py:time_set", "kasa/cli/time.py:_get_timezone", "kasa/smart/modules/time.py:set_time"]}
{"id": "C134", "title": "A discovery call ends cleanly", "statement": "However replies, callbacks, a cancellation and a failing socket interleave, a discovery call ends once its sending and its callbacks have ended; when it has ended its socket is closed and its findings no longer change. If it returns, every callback it started has run to its end without failing; if its caller was cancelled it does not return as if nothing had happened; if it raises, the exception comes from a callback, the sending, a cancellation or the socket, and the devices found so far have been closed.", "quantifier": "all interleavings of replies, ends of callbacks and of the sending, cancellation at any point, loss of the socket, and outcomes of closing", "why_tests_cant": "Every interleaving of tasks and cancellation is a different run; tests run one of them with a mocked socket.", "anchors": ["kasa/discover.py:_DiscoverProtocol.wait_for_discovery_to_complete", "kasa/discover.py:Discover.discover", "kasa/discover.py:Discover.discover_single"]}
{"id": "C135", "title": "Updating a hub brings its children up to date", "statement": "After a successful update of a SMART hub or strip its children are exactly the listed ones that have components; each shows what the device said of it last and keeps its modules and their state while it stays listed. Every child runs its own update once and in order, unless it is a hub, the caller left the children out and none came or went. Children that do not answer make no difference to the hub's update, and the update succeeds and raises library errors only, whatever one reply was.", "quantifier": "all child and component lists (duplicates, missing ids, missing components), histories of the hub, replies and failures of every child, hubs and strips, update_children on or off", "why_tests_cant": "Tests use recorded hubs whose lists are complete and fixed; children that come, go, repeat or fail at different moments, and error replies to one of the two lists, form unbounded combinations.", "anchors": ["kasa/smart/smartdevice.py:SmartDevice.update", "kasa/smart/smartdevice.py:SmartDevice._update_children_info", "kasa/smart/smartdevice.py:SmartDevice._create_delete_children", "kasa/smart/smartdevice.py:SmartDevice._initialize_children", "kasa/smart/smartchilddevice.py:SmartChildDevice._update"]}
{"id": "C136", "title": "An update shows what setters changed, even when they overlap", "statement": "Updates and setters of one device object may overlap in any way. Once the setters have returned, the next successful update shows for every setting what the device would answer; a module without an update interval shows the device's current value after every successful update, whoever changed it. A second update called while the first is under way does not fail.", "quantifier": "All devices and module sets, all interleavings of any number of updates and setters, all times, all answers", "why_tests_cant": "Tests call updates and setters one after the other on a device that does not change by itself; overlaps at every suspension point and the fallback to single queries cannot be enumerated.", "anchors": ["kasa/smart/smartdevice.py: update, _modular_update, _handle_modular_update_error, _handle_module_post_update", "kasa/smart/smartmodule.py: allow_update_after, _should_update, update_interval", "kasa/smart/smartchilddevice.py: _update", "kasa/protocols/smartprotocol.py: query"]}
{"id": "C137", "title": "The tool's output and exit status tell what happened", "statement": "With --json the tool prints exactly one JSON document that shows the command's result and nothing else, the same document for a device whichever way it was reached; a failure is told and gives a non-zero status. Without --json everything is printed in order, no document appears, and a failure says why.", "quantifier": "All commands, results, messages, options and ways to end", "why_tests_cant": "Tests look at a few commands; the shape of the output for every result value and every way to end cannot be enumerated.", "anchors": ["kasa/cli/common.py: echo, error, json_formatter_cb, CatchAllExceptions", "kasa/cli/device.py: state, child_logs", "kasa/cli/schedule.py: _schedule_list", "kasa/cli/vacuum.py: records_list, reset_consumable", "kasa/cli/main.py: cli", "kasa/cli/discover.py: detail"]}
{"id": "C138", "title": "After an update a legacy device object shows the device as it is, even when updates overlap", "statement": "For any interleaving of overlapping update() calls, failures, cancellations and changes of a legacy (IOT) device: when an update that began after the last change returns, everything that is polled shows the device's current answers, and it stays so until the next change, even if older updates are still under way; an update that fails or is cancelled changes nothing that is shown; and an update that has begun returns once the outstanding queries are answered, whichever others are cancelled.", "quantifier": "every set of modules, reply limit, history of calls, answers, failures, cancellations and device changes", "why_tests_cant": "Updates of one object interleave at every query; which replies are merged last depends on the schedule, and tests run one update at a time.", "anchors": ["kasa/iot/iotdevice.py: IotDevice.update, IotDevice._modular_update", "kasa/iot/iotmodule.py: IotModule.is_supported", "kasa/iot/iotbulb.py: IotBulb._initialize_modules, max_device_response_size", "kasa/protocols/iotprotocol.py: IotProtocol.query"]}
{"id": "C139", "title": "Before its first update an object shows what discovery told, or asks for an update", "statement": "Reading a property of a device object that was only created or discovered either gives what the device said in its discovery answer, the same as an update with that answer would give, or fails with the error that asks for an update; it never gives a made-up value. A switch command given to such an object is sent to the device.", "quantifier": "every discovery answer, full or short, every kind of device, every property named, and new objects", "why_tests_cant": "Tests read a few properties of fixtures after discovery; that no value is made up is a statement about every answer and every property.", "anchors": ["kasa/iot/iotdevice.py: requires_update, IotDevice.update_from_discover_info, model, alias, mac, device_id, time", "kasa/iot/iotstrip.py: IotStrip.is_on, turn_on, turn_off", "kasa/iot/iotplug.py: IotPlug.is_on, turn_on, turn_off", "kasa/iot/iotbulb.py: IotBulb.is_on, light_state", "kasa/iot/iotcamera.py: IotCamera", "kasa/smart/smartdevice.py: SmartDevice.model, mac, device_id, is_on, time", "kasa/smartcam/smartcamdevice.py: SmartCamDevice.is_on, set_state"]}
{"id": "C140", "title": "Requests go to the configured host and port", "statement": "Every request of a device object goes to the host it shows and to its port: the port override if one is given, else the port that discovery told, else the usual port of the protocol; encrypted transports use https. After the host of the object is changed, requests go to the new host.", "quantifier": "every kind of transport, every configuration, every history of requests with any outcome, resets, closes and changes of the host", "why_tests_cant": "Tests check the default port of each transport on one address; that no history leads a request elsewhere, and that a change of the host takes effect, is about all histories.", "anchors": ["kasa/transports/basetransport.py: BaseTransport.__init__", "kasa/transports/aestransport.py: AesTransport", "kasa/transports/klaptransport.py: KlapTransport", "kasa/transports/sslaestransport.py: SslAesTransport", "kasa/transports/ssltransport.py: SslTransport", "kasa/transports/linkietransport.py: LinkieTransportV2", "kasa/transports/xortransport.py: XorTransport", "kasa/device.py: Device.host, Device.port", "kasa/discover.py: Discover.discover_single"]}
{"id": "C141", "title": "The text of a feature tells its value, and the listing shows every feature once", "statement": "The text of a feature lets the reader tell its current value: the current choice is marked, a number comes with its unit and limits, a value that cannot be read or is not a valid choice is reported as such. Making the text never fails. The feature listing of the command line tool shows every feature of the device exactly once, under its category, even if a feature cannot be read.", "quantifier": "every feature, value, list of choices, unit, limits and failure of a getter; every set of features", "why_tests_cant": "Tests compare a few texts; that two different values never look the same, and that no feature is left out whatever fails, is about all values and all sets of features.", "anchors": ["kasa/feature.py: Feature.__repr__, Feature.__post_init__", "kasa/cli/feature.py: _echo_features, _echo_all_features"]}
{"id": "C142", "title": "Settings made one after another all take effect", "statement": "In any sequence of settings made through a SMART device object, with or without updates in between and with other clients changing the device meanwhile, each valid call changes exactly the setting it names and an update then shows every setting as it was last set, by whoever set it; refused calls change nothing.", "quantifier": "every sequence of 25 kinds of setters (auto-off, LED, power protection, alarm, vacuum, mop, dust bin, volume, updates, locks, fan, temperature unit, transitions) with any arguments, updates of any subset of the records and changes by others, from every well-formed device state", "why_tests_cant": "setters send back parts of what the last update showed, so what one call does depends on every call and change since; only quantifying over histories shows when that is harmless", "anchors": ["kasa/smart/modules/autooff.py:AutoOff", "kasa/smart/modules/led.py:Led.set_led", "kasa/smart/modules/powerprotection.py:PowerProtection", "kasa/smart/modules/alarm.py:Alarm", "kasa/smart/modules/mop.py:Mop.set_waterlevel", "kasa/smart/modules/clean.py:Clean", "kasa/smart/modules/dustbin.py:Dustbin", "kasa/smart/modules/lighttransition.py:LightTransition", "kasa/smart/modules/firmware.py:Firmware.set_auto_update_enabled"]}
{"id": "C143", "title": "What is said about new firmware is true of the device", "statement": "After any history of checks, installations, updates, new releases and lost cloud connections, a SMART device object names the version the last check found and offers an update exactly if that check found one and the device was last seen connected; a check that failed or gave an unreadable answer leaves nothing known. A download is started exactly when an update is offered, once per call. What is offered is true of the device: an update is offered exactly if the device runs something older than the newest version.", "quantifier": "every sequence of checks (with any reply or failure), installations, updates of the object, releases and changes of the cloud connection", "why_tests_cant": "The status is kept between calls and read long after the check; tests check one reply and one installation with a mocked status, never what the status says after them.", "anchors": ["kasa/smart/modules/firmware.py: UpdateInfo, check_latest_firmware, latest_firmware, update_available, update", "kasa/smart/smartdevice.py: is_cloud_connected, hw_info"]}
{"id": "C144", "title": "A module tells truly whether an attribute can be used", "statement": "Asking a module with has_feature, by name or with the attribute itself, about an attribute documented as depending on the device answers yes exactly if the attribute can be used with that device, whenever it is asked and whatever was asked before; get_feature gives a feature of the module that reads or sets the attribute. Asking about any other name is an error. The old names is_color, is_dimmable and is_variable_color_temp say the same.", "quantifier": "all thirteen kinds of modules with such attributes, all devices, all histories of questions and of updates that succeed or break off", "why_tests_cant": "The answers are cached for the life of the process and depend on what was asked when; tests ask fully updated devices for a handful of attributes.", "anchors": ["kasa/module.py: FeatureAttribute, Module.has_feature, Module.get_feature, _get_feature_attribute, _get_bound_feature", "kasa/smart/modules/light.py: Light._all_features", "kasa/smart/modules/thermostat.py: Thermostat._all_features", "kasa/smart/modules/clean.py: Clean.set_fan_speed_preset", "kasa/device.py: Device._get_deprecated_callable_attribute"]}
{"id": "C145", "title": "Old names still mean what they were replaced by", "statement": "Every deprecated attribute of a device gives what the module attribute it was replaced by gives - the same value or the same exception - on every device that has that module, with one deprecation warning naming it; questions about the type and the abilities of a light are answered truly; without the module the name is missing and hasattr says so; names the class defines itself are not redirected; other names are missing. The same holds for the old names of the energy module and of the package.", "quantifier": "all devices (types, sets of modules and module classes, names their classes define), all outcomes of reading attributes, all names", "why_tests_cant": "Tests read the old names on the fixture devices and mostly only check that a warning is given; which names a given combination of class and modules answers, and whether with the same outcome, is a product of tables no fixture covers.", "anchors": ["kasa/device.py: __getattr__, _get_replacing_attr, _get_deprecated_callable_attribute, _deprecated_other_attributes", "kasa/interfaces/light.py: __getattr__", "kasa/interfaces/energy.py: __getattr__", "kasa/__init__.py: __getattr__", "docs/source/deprecated.md"]}
{"id": "C146", "title": "A device object over the network shows what the device says", "statement": "An update of a SMART device object, run through the query protocol (batching, paging, retries), an encrypted transport and the network down to a device, succeeds while nothing goes wrong on the way and the device gives its information; afterwards the object has, for each method it asked for, the complete value the device gives (all pages of a list), or its error code, and keeps what it had for the others; each module presents exactly these values, leaves out those of its optional methods that the device refuses, and raises the device's error for the others. Any sequence of updates and setters over any network is one of the histories for which the module properties hold, and has the results it would have if the device was called directly.", "quantifier": "all devices and their answers, all modules and their queries, all sequences of updates and setters, all transports sessions and schedules without failures, all sizes of lists and batches", "why_tests_cant": "Fixture tests replace the protocol under the device object, and protocol tests have no device object above; that a value goes unchanged from the device through session, batch, paging and module to the user is a statement about the composition for all of them.", "anchors": ["kasa/smart/smartdevice.py: update, _negotiate, _modular_update, _handle_modular_update_error", "kasa/smart/smartmodule.py: data, call", "kasa/protocols/smartprotocol.py: query", "kasa/transports/klaptransport.py: send", "kasa/transports/aestransport.py: send"]}
{"id": "C147", "title": "Updates and commands of a legacy device over the network do what they would with the device at hand", "statement": "While nothing goes wrong with the network, the session and the device, an update of a legacy device over TCP makes the device object show, for the system information and for every command of every module in use, what the device answers to it at that time; a module the device does not know is marked as such, is not asked for again, and nothing else that is shown changes. The first update asks for the system information first and then for what its modules need. A command is carried out by the device exactly once and returns the device's answer without its error code. The same programs over KLAP and over the transport of legacy cameras have the results and the effects they have on a device called directly.", "quantifier": "all devices (what they know, answer and do on their own between messages), all sets of modules, sizes and limits, all earlier contents of the object, all replies of the transport's network that are healthy", "why_tests_cant": "the update splits its questions over several requests, merges the replies, encrypts, frames and retries; tests replace the protocol with a fake that returns a fixture, so no test runs an object over a transport, and none compares what is shown with the device for arbitrary module sets", "anchors": ["kasa/iot/iotdevice.py: IotDevice.update, _modular_update, _query_helper, _extract_sys_info", "kasa/protocols/iotprotocol.py: IotProtocol.query", "kasa/transports/xortransport.py", "kasa/transports/klaptransport.py", "kasa/transports/linkietransport.py"]}
{"id": "C148", "title": "A hub and its children show what the hub and the children say", "statement": "After update() of a hub or strip returns, the object holds exactly what the hub answered to the methods it was asked for (the rest as before), its children are exactly those the hub lists with their components, each child's information is the hub's last entry for it, and each child that was asked holds exactly what the child itself answered to each of its methods; and so when all of this passes through the protocol, the encrypted transport and the device's own side of the session.", "quantifier": "all hubs, children, module sets, parameters, batch sizes from two, interval histories, device states, transports' session states and timings in which the network and sessions are healthy", "why_tests_cant": "A test runs one hub with one list of children against a fake protocol; that child requests survive nesting into control_child messages, batching, encryption and the way back for every list of children needs a proof over all layers.", "anchors": ["kasa/smart/smartdevice.py: SmartDevice.update, _negotiate, _update_children_info", "kasa/smart/smartchilddevice.py: SmartChildDevice._update", "kasa/protocols/smartprotocol.py: SmartProtocol, _ChildProtocolWrapper", "kasa/transports/klaptransport.py", "kasa/transports/aestransport.py"]}
{"id": "C149", "title": "On, off and toggle of the tool do what they say to the device or child named, and nothing else", "statement": "The commands on, off and toggle leave the chosen device, or the chosen child, in the state asked for when they succeed: a socket or relay, a bulb, a dimmer (with or without a transition), a SMART device, a camera through its privacy mask, all sockets of a legacy strip, or one socket of it. Nothing else about the device changes. If the command fails a message to the device failed, and whichever messages arrived nothing was switched the wrong way. A child that does not exist is an error before anything is sent. Toggling twice restores the device.", "quantifier": "All kinds of devices and their states, all three commands, all transitions, all child options, all answers of the device, all subsets of the messages that arrive.", "why_tests_cant": "Tests toggle single mocked devices; they cannot range over all mixes of socket states, failing messages and child options.", "anchors": ["kasa/cli/device.py: on, off, toggle", "kasa/cli/common.py: pass_dev_or_child", "kasa/iot/iotplug.py: IotPlug.turn_on, IotPlug.turn_off", "kasa/iot/iotbulb.py: IotBulb.turn_on, IotBulb.turn_off", "kasa/iot/iotdimmer.py: IotDimmer.turn_on, IotDimmer.turn_off", "kasa/iot/iotstrip.py: IotStrip.turn_on, IotStrip.turn_off", "kasa/smart/smartdevice.py: SmartDevice.set_state", "kasa/smartcam/smartcamdevice.py: SmartCamDevice.set_state"]}
{"id": "C150", "title": "Commands of the modules of legacy devices reach their own service and nothing else", "statement": "Enabling, disabling and deleting rules of the schedule, anti-theft and countdown, erasing run time or energy statistics, setting the light sensor and the cloud commands each send the device one request for the service that devices of its family have for that purpose; a socket's commands concern only that socket. After any history of such commands the device is as their effects in order would leave it, other services and sockets unchanged. A command succeeds with the device's answer and fails if the device cannot be asked, does not know the service or reports an error.", "quantifier": "All devices and sockets, modules, commands and arguments, all histories of commands, all answers of the device.", "why_tests_cant": "Tests check a few of these calls against mocks; that no command touches another service or socket, for all histories and answers, is not a matter of cases.", "anchors": ["kasa/iot/iotmodule.py: IotModule.call, query_for_command", "kasa/iot/modules/rulemodule.py: RuleModule.set_enabled, delete_rule, delete_all_rules", "kasa/iot/modules/usage.py: Usage.erase_stats", "kasa/iot/modules/emeter.py: Emeter.erase_stats", "kasa/iot/modules/ambientlight.py: AmbientLight.set_enabled, set_brightness_limit", "kasa/iot/modules/cloud.py: Cloud", "kasa/iot/iotstrip.py: IotStripPlug._query_helper"]}
{"id": "C151", "title": "A setting takes what it advertises, shows what was set, and what it showed can be put back", "statement": "For every number and every choice a device object offers as a setting (dimmer, motion sensor, alarm, vacuum, fan, thermostat, power protection, camera): each value within the advertised range or choices is accepted, the setting then shows it and settings about other things stay as they are; every other value is refused and nothing is sent; and the value a setting shows is itself acceptable, so that it can be saved and put back later whatever happened in between.", "quantifier": "every setting of the list, every state of a device that reports what its modules read, every value (whole, fractional, name or other), every later state", "why_tests_cant": "Tests set one value per feature on a fixture; they cannot range over all values, all device states and all pairs of settings, and none of them writes back what it read.", "anchors": ["kasa/feature.py: Feature.set_value, Feature.value, Feature.range, Feature.choices", "kasa/iot/modules/dimmer.py: Dimmer", "kasa/iot/modules/motion.py: Motion", "kasa/smart/modules/alarm.py: Alarm", "kasa/smart/modules/autooff.py: AutoOff", "kasa/smart/modules/clean.py: Clean", "kasa/smart/modules/dustbin.py: Dustbin", "kasa/smart/modules/mop.py: Mop", "kasa/smart/modules/speaker.py: Speaker", "kasa/smart/modules/fan.py: Fan", "kasa/smart/modules/lighttransition.py: LightTransition", "kasa/smart/modules/powerprotection.py: PowerProtection", "kasa/smart/modules/temperaturecontrol.py: TemperatureControl", "kasa/smart/modules/temperaturesensor.py: TemperatureSensor", "kasa/smartcam/modules/alarm.py: Alarm", "kasa/smartcam/modules/pantilt.py: PanTilt"]}
{"id": "C152", "title": "Renaming, rebooting, resetting and raw commands reach just the object meant", "statement": "Renaming a device or one of its children with the command line tool sends one rename request for exactly that object, then updates the device once; the name shown afterwards is the new one and every other object keeps its name. Reboot, factory reset and raw commands send one request, for exactly the object, whatever is answered; a raw command gives back exactly what the object answered. Without confirmation neither a reset nor new credentials are sent. In a program the same holds for renaming a child and updating it.", "quantifier": "all kinds of objects (legacy devices, bulbs, sockets, SMART devices and children, cameras and children of camera hubs), all names, delays, methods and parameters, all ways of selecting a child, all devices and their replies", "why_tests_cant": "The request depends on the kind of the object and on where it is; tests try a few devices, never a child of each kind with each command.", "anchors": ["kasa/cli/device.py:alias,reboot,factory_reset,update_credentials", "kasa/cli/main.py:cmd_command", "kasa/cli/common.py:pass_dev_or_child", "kasa/iot/iotdevice.py:set_alias,reboot,factory_reset", "kasa/smart/smartdevice.py:set_alias,reboot,factory_reset", "kasa/smartcam/smartcamdevice.py:set_alias", "kasa/protocols/smartcamprotocol.py:_ChildCameraProtocolWrapper"]}
{"id": "C153", "title": "The discover commands tell what became of every device that answered", "statement": "When `discover list` ends it has printed exactly one line about every device and unsupported device that answered while it was sending, with its name or with why it could not be read, and it is not stopped by devices that fail; `discover` prints the blocks of the devices one after another, none within another, and then the true numbers of devices, unsupported ones and refused logins. Devices never block each other so that the command could not end. `discover raw` prints each answer as it came, and with --redact nothing that tells names, identifiers, keys or accounts.", "quantifier": "all networks, results of updates, orders of answers, interleavings of the callbacks and printing, and all answers", "why_tests_cant": "Callbacks run as concurrent tasks around a semaphore; tests run one schedule with mocked devices", "anchors": ["kasa/cli/discover.py:detail", "kasa/cli/discover.py:list", "kasa/cli/discover.py:raw", "kasa/discover.py:_DiscoverProtocol.datagram_received", "kasa/discover.py:_DiscoverProtocol.wait_for_discovery_to_complete"]}
{"id": "C154", "title": "A camera object over the network shows what the camera says", "statement": "Let a camera object be updated over the camera protocol and its encrypted transport, with every request answered by a camera whose answers to the methods asked for do not change meanwhile. Then the object holds, for every method that was asked for, exactly what the camera says to it (its value or its error code), and for every other method what it held before; a later update succeeds if and only if the camera tells its basic information, and the object's information then is that information under the library's common names. After a first update the object also has exactly the components the camera lists. A module of the object then gives the part of the camera's answers it is about, or a library error with the camera's code. The first update of a camera that answers its component list with an error code ends in an error that is not the library's.", "quantifier": "all cameras, answers, splits into messages, modules, earlier states of the object, transports' sessions and message encodings", "why_tests_cant": "The result depends on the object, the retry loop, splitting into batches, the secure session and the camera together; tests use fake protocols with recorded answers.", "anchors": ["kasa/smartcam/smartcamdevice.py: SmartCamDevice._negotiate, _update_internal_info, _map_info, _initialize_children, _query_setter_helper", "kasa/smart/smartdevice.py: SmartDevice.update, _modular_update, _handle_modular_update_error", "kasa/smartcam/smartcammodule.py: SmartCamModule.data", "kasa/protocols/smartcamprotocol.py: SmartCamProtocol", "kasa/transports/sslaestransport.py: SslAesTransport"]}
{"id": "C155", "title": "What is written about a device for publication has nothing private in it", "statement": "For every answer of a device, of any shape, the data the tool for reporting devices writes to a file contains, at any depth, no location, no id with letters or digits other than zero, no hardware address beyond the vendor's part, no name of the device or of a network, no account, serial number or map; children's ids are replaced by names.", "quantifier": "every answer of every device and child, every depth and position, every of the three redaction tables", "why_tests_cant": "tests check redaction of a few recorded answers; that no answer of any shape, with children of any model, keeps a private value cannot be enumerated", "anchors": ["devtools/dump_devinfo.py: _wrap_redactors, get_smart_fixtures, get_legacy_fixture", "kasa/protocols/protocol.py: redact_data", "kasa/protocols/smartprotocol.py: REDACTORS", "kasa/protocols/iotprotocol.py: REDACTORS", "kasa/discover.py: NEW_DISCOVERY_REDACTORS"]}
{"id": "C156", "title": "The files about a device have all it answered, and name its children consistently", "statement": "For every device whose answers do not change: the files have every answer to every question, except for what is private, and nothing else, whatever the number of questions put at once; a child is called by the same name in all lists of the device and in its own file, and different children by different names.", "quantifier": "every device, list of questions, number of questions at once, set of children, and answers of any shape", "why_tests_cant": "there is no bound on the number of children, questions or depth of answers, and the tool runs against devices a test suite has no recording of", "anchors": ["devtools/dump_devinfo.py: _make_requests_or_exit, _make_final_calls, get_smart_camera_test_calls, scrub_child_device_ids, get_smart_fixtures, get_legacy_fixture"]}
{"id": "C157", "title": "A camera hub and its children show what the hub and the children say", "statement": "For every truthful camera hub that relays what its children are asked, every list of children it reports and every state of the objects before: after an update, also over the network with encryption, the hub's object has exactly the hub's answers; there is an object for exactly the children the hub lists with components and a known category or an object already, each of the class of its category, with the information the hub gives of it under the common names; and every child that was asked shows exactly what it answered. Children are asked whenever the set of them changed. A child that can not be reached does not make the update fail.", "quantifier": "every hub, list of children, components and categories, every child's answers, every state before, every course of the encrypted conversation in which requests are answered", "why_tests_cant": "the lists, categories, answers and previous states can not be enumerated, and the recorded hubs of the tests never change their children or lose one", "anchors": ["kasa/smartcam/smartcamdevice.py: SmartCamDevice._update_children_info, _initialize_smart_child, _initialize_smartcam_child, _try_create_child", "kasa/smartcam/smartcamchild.py: SmartCamChild", "kasa/smart/smartchilddevice.py: SmartChildDevice._update, create", "kasa/smart/smartdevice.py: SmartDevice.update, _create_delete_children", "kasa/protocols/smartcamprotocol.py: _ChildCameraProtocolWrapper"]}
{"id": "C158", "title": "The decoder of encrypted captures shows exactly the requests that were sent", "statement": "From a recording of the traffic between a client and a device that uses the KLAP protocol, the decoding tool with the user's credentials shows every request the client sent, in order and once, over any number of sessions (with the user's or the built-in credentials), and writes the same list to the file; nothing else is shown, and with other credentials it says so.", "quantifier": "all captures: any number of handshakes, requests and unrelated packets in between, any seeds, numbers, messages and credentials", "why_tests_cant": "A test would replay one stored capture; what must hold ranges over all interleavings, sessions, sequence numbers (half of which start negative) and seeds.", "anchors": ["devtools/parse_pcap_klap.py:Operator", "devtools/parse_pcap_klap.py:main", "devtools/parse_pcap_klap.py:_get_seq_from_query", "devtools/parse_pcap_klap.py:MyEncryptionSession"]}
{"id": "C159", "title": "The decoder of legacy captures lists every message and counts them correctly", "statement": "From a recording of the traffic of legacy devices, the decoding tool shows every message that was sent or answered, command by command in order, with its context and whether it succeeded, and its statistics say exactly how often each module and command occurred and how many errors there were.", "quantifier": "all captures: any frames in between, any messages with any modules, commands, answers and errors", "why_tests_cant": "A test decodes one file; the claim is about every capture, including those with discovery datagrams and errors without a text.", "anchors": ["devtools/parse_pcap.py:read_payloads_from_file", "devtools/parse_pcap.py:parse_pcap"]}
{"id": "C160", "title": "Every reading of a module is the field in which the device keeps it", "statement": "After an update, each property of a SMART module (alarm, auto off, battery, locks, vacuum, cloud, colour temperature, contact, dustbin, energy, fan, firmware, frost protection, HomeKit, humidity, LED, Matter, mop, motion, overheating, power protection, report interval, speaker, thermostat, temperature, trigger log, water leak) gives a value exactly if the device reports it, and then that value in the documented form: read from the answer to the right request, of the device itself or else of its hub, independent of how many requests the module makes, of the order of the answers and of the component version. A refused request makes the module's readings raise the device's error (the cloud connection then counts as missing), an optional one only leaves its values out, and what comes with the device information is unaffected.", "quantifier": "all devices' answers, all orders of stored answers, all component versions, devices of their own and children of hubs, 67 readings of 28 modules", "why_tests_cant": "tests read each property against a handful of recorded devices; they cannot show that no answer, version or combination of refused requests makes a property show another field or fail although the device reports the value", "anchors": ["kasa/smart/smartmodule.py:SmartModule.data", "kasa/smart/modules/led.py:Led.night_mode_settings", "kasa/smart/modules/frostprotection.py:FrostProtection.minimum_temperature", "kasa/smart/modules/energy.py:Energy", "kasa/smart/modules/triggerlogs.py:TriggerLogs.logs", "kasa/smart/modules/alarm.py:Alarm"]}
{"id": "C161", "title": "Every reading of a camera's module is the field in which the camera keeps it", "statement": "After an update of a camera, a camera hub or a camera that is a child of a hub, each value its modules show - the detections, the indicator and the lens mask, the siren's sound, sounds, volume, duration and activity, the Matter setup, the signal, the id, the battery's level, state, temperature, voltage and charging, the categories of children - is exactly the field in which the camera reports it; a value the camera does not report is not made up; a refused request gives the camera's code and one never made the library's error.", "quantifier": "every camera with any answers, any object state after an update, every reading, camera or child of a hub", "why_tests_cant": "the readings depend on which of two layouts the camera answers with, on renamed fields and on which requests were refused; fixtures show a few combinations", "anchors": ["kasa/smartcam/smartcammodule.py:SmartCamModule.data", "kasa/smartcam/modules/alarm.py:Alarm", "kasa/smartcam/modules/battery.py:Battery", "kasa/smartcam/modules/device.py:DeviceModule", "kasa/smartcam/modules/childsetup.py:ChildSetup", "kasa/smartcam/modules/matter.py:Matter"]}
{"id": "C162", "title": "Every reading of a legacy module is what the device last replied", "statement": "For a legacy plug, strip, dimmer or bulb, a reading of its motion sensor (on, lowest, highest and middle value, range, threshold, inactivity timeout, current value), ambient light sensor, dimmer settings, usage lists, cloud connection or LED gives a value exactly if the last reply of the device contains it, and then that one, in the unit the device keeps it in; after an update it is what the device has. Reading the motion sensor between updates returns the value that is shown from then on and changes nothing else; a failing call changes nothing. A module that was never updated raises an error of the library. A command the device refused should raise an error of the library too.", "quantifier": "all readings, all last replies (also incomplete or ill-typed ones), all devices that answer updates, all answers of the sensor", "why_tests_cant": "Tests read fixtures in which every field is present; which field a reading comes from and what happens for incomplete replies and refused commands needs all replies.", "anchors": ["kasa/iot/modules/motion.py:Motion", "kasa/iot/modules/ambientlight.py:AmbientLight", "kasa/iot/modules/dimmer.py:Dimmer", "kasa/iot/modules/usage.py:Usage", "kasa/iot/modules/cloud.py:Cloud", "kasa/iot/modules/led.py:Led", "kasa/iot/iotmodule.py:IotModule.data"]}
{"id": "C163", "title": "Every feature a device offers has an id of its own and shows the field it is named for", "statement": "The first update of a SMART device or camera that reports a list of components gives it exactly the features its components and answers call for (a battery level only if the device reports one, voltage and current only with a meter that measures them, a pair of smooth-transition switches only from version 2 on, a used, a remaining and a reset feature per wearing part the vacuum counts, ...), no two of them under one id, whatever combination of components the device reports. Each feature that shows a reading shows the field of the device it is named for: it reads as a value exactly if the device gives that one.", "quantifier": "all lists of components, all device informations, all answers of the device, all versions, devices on a hub or not, all features", "why_tests_cant": "Fixtures are a few dozen combinations of components; that no combination at all gives two features one id, and that no feature is wired to the reading of another one, is a statement about every combination and every answer.", "anchors": ["kasa/smart/smartdevice.py:SmartDevice._initialize_features", "kasa/smart/smartmodule.py:SmartModule._initialize_features", "kasa/device.py:Device._add_feature", "kasa/smartcam/smartcamdevice.py:SmartCamDevice._initialize_features", "kasa/smart/modules/energy.py:Energy", "kasa/smart/modules/consumables.py:Consumables", "kasa/smart/modules/clean.py:Clean", "kasa/smartcam/modules/battery.py:Battery"]}
{"id": "C164", "title": "The features of a legacy device are those its kind and its answers call for, and show what it replied", "statement": "After the first update of a legacy device (plug, wall switch, dimmer, bulb, light strip, power strip or one socket of it), the ids in device.features are distinct, and there is a feature exactly if the device itself has it or a module its kind and its system information call for has it and the device did not refuse that module's service: a voltage or total only if the meter reports one in either unit, the motion sensor's only if it told its configuration, colour only if the bulb says it has it. The value of each is the field of the device's last reply it is named for, in the unit the feature declares. A device that refuses a service is offered without that module.", "quantifier": "all kinds of legacy device, all system informations, all replies and refusals of single services", "why_tests_cant": "which features there are depends on the combination of kind, feature words, refused services, reported units and capability flags; the fixtures are some eighty recorded combinations", "anchors": ["kasa/iot/iotdevice.py: IotDevice.update, _initialize_features, add_module, supported_modules", "kasa/iot/modules/emeter.py: Emeter._post_update_hook", "kasa/iot/modules/motion.py: Motion._initialize_features", "kasa/iot/iotplug.py, iotbulb.py, iotdimmer.py, iotlightstrip.py, iotstrip.py: _initialize_modules", "kasa/interfaces/energy.py: Energy._initialize_features"]}
{"id": "C165", "title": "A device is called what it last said, and its text never raises", "statement": "Through the life of a device object - made by hand, discovered, updated any number of times, with updates it answers, refuses or does not answer in any order - alias and model are those of the last answer, the model of a discovered device is the announced one without its region until then, and repr(device) never raises: it shows type, address, name and model, and says that an update is needed exactly until the device has been reached. The model of a child is the one its parent's list says.", "quantifier": "all discovery answers, all histories of answered, refused and unanswered updates, all names", "why_tests_cant": "the text is evaluated in log calls and error reports in whatever state the object is; tests print a device right after a successful update", "anchors": ["kasa/device.py: Device.__repr__, device_info", "kasa/smart/smartdevice.py: SmartDevice.model, alias, device_type, _negotiate, _modular_update, _handle_modular_update_error, update_from_discover_info", "kasa/smart/smartchilddevice.py: SmartChildDevice.device_info, __repr__", "kasa/iot/iotdevice.py: IotDevice.model, alias, update_from_discover_info, requires_update"]}
{"id": "C166", "title": "A camera is called what it last said, and so is a camera on a hub", "statement": "After an update that succeeded, the name, the model and the kind shown for a camera (or doorbell, or camera hub), and the text of its object, are what the camera said in that update; before the first answer the text says that an update is needed, with the model and kind the discovery told; a camera on a hub is called what the hub last told of it. Reading the model or the text never raises.", "quantifier": "all histories of updates that succeed, are refused or get no answer, all infos, cameras found by discovery or made directly, on a hub or not", "why_tests_cant": "The text is read at any moment of a history; tests read it after one successful update. What it does depends on which of the earlier updates failed.", "anchors": ["kasa/smartcam/smartcamdevice.py: SmartCamDevice.alias, device_type, _map_info, _get_device_info, _negotiate", "kasa/smartcam/smartcamchild.py: SmartCamChild", "kasa/smart/smartdevice.py: model", "kasa/device.py: __repr__"]}
{"id": "C167", "title": "A camera that refuses a login says why", "statement": "When a camera turns a login away, the error the user gets says why: a camera that reports that it is blocked raises a device error with that code, a camera that does not know the user name or has another password raises an authentication error and gets nothing beyond the greeting, and a camera that refuses the proof of the password raises the error its code stands for. This holds whatever was sent before.", "quantifier": "all histories of requests and resets that leave no session, all configurations and all replies of the camera in the cameras' format", "why_tests_cant": "The answer combines up to four replies, each with two places for a code, after any history; tests replay a few recorded refusals.", "anchors": ["kasa/transports/sslaestransport.py: SslAesTransport.perform_handshake1, perform_handshake2, _get_response_inner_error, _is_less_secure_login, _handle_response_error_code"]}
{"id": "C168", "title": "When a device was switched on, and when it will switch itself off, are the right moments", "statement": "The moment a device reports as the one it was switched on is its clock's time less the time it has been on, and the one it reports for switching itself off is its clock's time plus what remains: as instants, whatever the device's time zone. While the device stays on every reading reports the same moment, also after its time zone is set anew; switched off it reports none.", "quantifier": "all time zones, instants, durations and histories of readings; SMART devices, legacy devices and sockets of strips", "why_tests_cant": "Depends on the rules of the time zone between two instants; tests use fixed clocks without clock changes.", "anchors": ["kasa/smart/smartdevice.py: SmartDevice.on_since", "kasa/iot/iotdevice.py: IotDevice.on_since", "kasa/iot/iotstrip.py: IotStripPlug.on_since", "kasa/smart/modules/autooff.py: AutoOff.auto_off_at, is_timer_active"]}
