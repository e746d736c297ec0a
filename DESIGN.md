# Formal model of python-kasa in Rocq - design

Sources: `/repo` (python-kasa, pinned, read as text, never run). Model and
proofs: `rocq/theories/`. One property per line of `properties.jsonl`,
mapped to theorem names in `MANIFEST.json`. Mutation tests of the theorems are
logged in `seeded/LOG.jsonl`.

## How the model is organised

* `Base.v` - vocabulary: Python exceptions as values (`exn`), results (`res`),
  Python dictionaries as insertion-ordered association lists, JSON values.
  `Py.v` - a state-and-exception monad and JSON access as Python does it
  (`x["k"]`, `x.get("k")`, iteration, truthiness), each with the exception
  Python raises. `Crypto_Model.v` - PKCS7, CBC, base64, big-endian packing,
  over an arbitrary block cipher and arbitrary digests.
* For each area `X`: `X_Model.v` is the shallow model (one Gallina function
  per Python function, branch by branch, each with a `file:lines` comment and
  its simplifications); `X_Spec.v` (where the statement needs vocabulary) is the
  specification, which does not use the model's helpers; `X_Proofs.v` holds
  lemmas; `X_Props.v` holds the property theorems, `Example`s that meet their
  hypotheses, and `Print Assumptions` under each theorem.
* Stateful cores are step functions (or transition relations); a history is a
  list of events; theorems quantify over all histories from the initial state.
* External behaviour (ciphers, digests, network, clock, device, JSON parser) is
  an argument of the model or a `Section` variable that becomes a universally
  quantified argument of the theorem; anything assumed of it is a hypothesis
  visible in the theorem's statement.
* The `...Peer` areas close the loop: the client model runs together with a
  device written from the protocol only, and the theorems compare the joint run
  with calling the device directly.
* Where the code violates the natural property, a theorem `..._refuted` gives a
  witness reachable in the model, and companion theorems (`..._partial` or
  plain) state what does hold. Such claims have status `partial` in
  `MANIFEST.json`: the property as a user would state it is false of the code,
  so nothing more can be proved; the note says what is wrong.

## Properties, models and proofs

| id | property | status | theorems in | modelled | proved by |
|----|----------|--------|-------------|----------|-----------|
| C01 | XOR frames decode to what was encoded | proved | `Xor_Props.v` | XOR codec, length prefix and the TCP connection of `transports/xortransport.py` with every fault point of a send | induction on the payload with the running key; invariant over all histories (an open connection has no pending reply) |
| C02 | XOR frames are unambiguous on the stream | proved | `Xor_Props.v` | XOR codec, length prefix and the TCP connection of `transports/xortransport.py` with every fault point of a send | induction on the payload with the running key; invariant over all histories (an open connection has no pending reply) |
| C03 | A legacy TCP response always belongs to its own request | proved | `Xor_Props.v` | XOR codec, length prefix and the TCP connection of `transports/xortransport.py` with every fault point of a send | induction on the payload with the running key; invariant over all histories (an open connection has no pending reply) |
| C04 | Legacy transport errors are classified consistently | proved | `Xor_Props.v` | XOR codec, length prefix and the TCP connection of `transports/xortransport.py` with every fault point of a send | induction on the payload with the running key; invariant over all histories (an open connection has no pending reply) |
| C05 | Legacy query retries are bounded and selective | proved | `Retry_Props.v` | both `_query` retry loops over an arbitrary attempt function | induction on the remaining attempts |
| C06 | SMART query retries are bounded and selective | proved | `Retry_Props.v` | both `_query` retry loops over an arbitrary attempt function | induction on the remaining attempts |
| C07 | A multi-method SMART query answers every method asked | partial | `Smart_Props.v` | `protocols/smartprotocol.py`: batches, paging, per-method dispatch; `exceptions.py` tables (`Codes_Model`) | induction on chunks, pages and methods; finite tables |
| C08 | List paging fetches the whole list | partial | `Smart_Props.v` | `protocols/smartprotocol.py`: batches, paging, per-method dispatch; `exceptions.py` tables (`Codes_Model`) | induction on chunks, pages and methods; finite tables |
| C09 | Every device error code maps to exactly one kind of exception | proved | `Smart_Props.v` | `protocols/smartprotocol.py`: batches, paging, per-method dispatch; `exceptions.py` tables (`Codes_Model`) | induction on chunks, pages and methods; finite tables |
| C10 | Redaction removes every sensitive value and nothing else | partial | `Redact_Props.v` | `redact_data`, `mask_mac` and the redactor tables of `protocols/protocol.py` | nested induction on JSON values |
| C11 | A MAC address mask hides the device-specific half | proved | `Redact_Props.v` | `redact_data`, `mask_mac` and the redactor tables of `protocols/protocol.py` | nested induction on JSON values |
| C12 | KLAP handshake accepts only a server that knows an accepted credential | proved | `Klap_Props.v` | `transports/klaptransport.py`: hashes as oracles, both handshakes, session arithmetic, state machine | case analysis; invariants over event histories |
| C13 | KLAP session messages decrypt to what was encrypted and never reuse a sequence number | proved | `Klap_Props.v` | `transports/klaptransport.py`: hashes as oracles, both handshakes, session arithmetic, state machine | case analysis; invariants over event histories |
| C14 | KLAP requests are only sent inside a live session | proved | `Klap_Props.v` | `transports/klaptransport.py`: hashes as oracles, both handshakes, session arithmetic, state machine | case analysis; invariants over event histories |
| C15 | AES transport sends user requests only over an established, logged-in session | partial | `Aes_Props.v` | `transports/aestransport.py`: PKCS7, CBC over a block-cipher oracle, base64, handshake, login, fallback login, state machine | invariants over event histories; arithmetic |
| C16 | AES session encryption round-trips | proved | `Aes_Props.v` | `transports/aestransport.py`: PKCS7, CBC over a block-cipher oracle, base64, handshake, login, fallback login, state machine | invariants over event histories; arithmetic |
| C17 | Camera (SSL-AES) transport recovers after reset | partial | `Cam_Props.v` | `transports/sslaestransport.py`: both handshakes, plain login, tags, sequence numbers, reset | invariants over event histories; refutation witnesses |
| C18 | Each discovered host is reported at most once | proved | `Disc_Props.v` | `discover.py`: datagram protocol as a step function, rounds, single-host discovery | invariants over datagram lists |
| C19 | A valid discovery reply is never lost because of an earlier stray datagram | partial | `Disc_Props.v` | `discover.py`: datagram protocol as a step function, rounds, single-host discovery | invariants over datagram lists |
| C20 | Single-host discovery returns the host or a definite error | partial | `Disc_Props.v` | `discover.py`: datagram protocol as a step function, rounds, single-host discovery | invariants over datagram lists |
| C21 | Device configuration survives serialisation | partial | `Factory_Props.v` | `deviceconfig.py`, `device_factory.py`, class and protocol tables, connect with fault points, try-all | case analysis over the finite tables; round trip; fault-point induction |
| C22 | Connection parameters are rejected exactly when unknown | proved | `Factory_Props.v` | `deviceconfig.py`, `device_factory.py`, class and protocol tables, connect with fault points, try-all | case analysis over the finite tables; round trip; fault-point induction |
| C23 | Protocol selection is a function of family, encryption and https | proved | `Factory_Props.v` | `deviceconfig.py`, `device_factory.py`, class and protocol tables, connect with fault points, try-all | case analysis over the finite tables; round trip; fault-point induction |
| C24 | A failed connect never leaks an open protocol | proved | `Factory_Props.v` | `deviceconfig.py`, `device_factory.py`, class and protocol tables, connect with fault points, try-all | case analysis over the finite tables; round trip; fault-point induction |
| C25 | HTTP errors map to library errors and requests are spaced | partial | `Http_Props.v` | `httpclient.py`: error mapping, request spacing, session ownership | case analysis; history induction |
| C26 | A feature never passes an invalid value to its setter | partial | `Feature_Props.v` | `feature.py`: validation and dispatch to the setter | case analysis |
| C27 | A module failing repeatedly backs off and is finally disabled | proved | `Smod_Props.v` | `smart/smartmodule.py` and the update loop of `smartdevice.py`: back-off, disabling, data selection | history induction |
| C28 | Module data is exactly the device's reply for its own queries | partial | `Smod_Props.v` | `smart/smartmodule.py` and the update loop of `smartdevice.py`: back-off, disabling, data selection | history induction |
| C29 | SMART child devices track the hub's list | proved | `Children_Props.v` | child list processing and child updates of `smartdevice.py` | history induction |
| C30 | Reported on-time start is stable | partial | `OnSince_Props.v` | cached on-since of SMART devices | history induction; refutation |
| C31 | Legacy update requests respect the device's response budget | proved | `Iot_Props.v` | `iotmodule.py`, `iotdevice.py`: merge, batching by response size, query helper, shared dictionaries on an explicit heap | induction; heap invariants |
| C32 | Merging queries never loses a command | partial | `Iot_Props.v` | `iotmodule.py`, `iotdevice.py`: merge, batching by response size, query helper, shared dictionaries on an explicit heap | induction; heap invariants |
| C33 | A legacy command either returns its own payload or raises | partial | `Iot_Props.v` | `iotmodule.py`, `iotdevice.py`: merge, batching by response size, query helper, shared dictionaries on an explicit heap | induction; heap invariants |
| C34 | Sockets of a legacy strip keep their own data | partial | `Iot_Props.v` | `iotmodule.py`, `iotdevice.py`: merge, batching by response size, query helper, shared dictionaries on an explicit heap | induction; heap invariants |
| C35 | Strip on/off acts on every socket that needs it | proved | `Strip_Props.v` | `iotstrip.py` switching, child lookup, on-since | induction over sockets |
| C36 | Strip energy figures aggregate the sockets | partial | `Emeter_Props.v` | `emeterstatus.py`, `usage.py`, emeter modules, strip sums | induction; rational arithmetic |
| C37 | Energy readings have one meaning in every unit | partial | `Emeter_Props.v` | `emeterstatus.py`, `usage.py`, emeter modules, strip sums | induction; rational arithmetic |
| C38 | Usage statistics conversion keeps the right entry | partial | `Emeter_Props.v` | `emeterstatus.py`, `usage.py`, emeter modules, strip sums | induction; rational arithmetic |
| C39 | Saving a light preset addresses the preset it names | partial | `SmartLight_Props.v` | SMART light modules: brightness, colour, temperature, state, transitions, presets | case analysis; device oracle as a state |
| C40 | Dimmer commands are validated and never switch off by accident | partial | `IotLight_Props.v` | `iotbulb.py`, `iotdimmer.py`, `iot/modules/light.py`, dimmer configuration | case analysis |
| C41 | Bulb commands are validated | partial | `IotLight_Props.v` | `iotbulb.py`, `iotdimmer.py`, `iot/modules/light.py`, dimmer configuration | case analysis |
| C42 | Setting a legacy light state never sends contradictory power | proved | `IotLight_Props.v` | `iotbulb.py`, `iotdimmer.py`, `iot/modules/light.py`, dimmer configuration | case analysis |
| C43 | Setting a SMART light state never sends contradictory power | partial | `SmartLight_Props.v` | SMART light modules: brightness, colour, temperature, state, transitions, presets | case analysis; device oracle as a state |
| C44 | Legacy timezone index and name correspond | partial | `TimeZone_Props.v` | `iottimezone.py`: the table and its search | finite table computation; induction |
| C45 | Motion sensor percentages are in range | partial | `Sensor_Props.v` | `motion.py`, MAC normalisation, legacy LED | case analysis; integer arithmetic |
| C46 | MAC addresses are normalised | partial | `Sensor_Props.v` | `motion.py`, MAC normalisation, legacy LED | case analysis; integer arithmetic |
| C47 | Child requests reach only the child and replies are unwrapped | partial | `Child_Props.v` | `_ChildProtocolWrapper`, `_ChildCameraProtocolWrapper` | induction over responses |
| C48 | Transition settings round-trip | proved | `SmartLight_Props.v` | SMART light modules: brightness, colour, temperature, state, transitions, presets | case analysis; device oracle as a state |
| C49 | Light effect names are recovered | partial | `Effect_Props.v` | light effect modules, effect tables | finite tables; base64 round trip |
| C50 | Thermostat mode reflects the device | partial | `Gadget_Props.v` | thermostat, alarm, energy, power protection, firmware of SMART devices | case analysis; device as a state |
| C51 | SMART energy figures use the first available source | proved | `Gadget_Props.v` | thermostat, alarm, energy, power protection, firmware of SMART devices | case analysis; device as a state |
| C52 | Power protection thresholds stay in range | proved | `Gadget_Props.v` | thermostat, alarm, energy, power protection, firmware of SMART devices | case analysis; device as a state |
| C53 | Vacuum status reflects the last reply | partial | `Vacuum_Props.v` | `clean.py`, `cleanrecords.py`, `consumables.py` | case analysis; heap for the shared table |
| C54 | Cleaning records can be re-read | partial | `Vacuum_Props.v` | `clean.py`, `cleanrecords.py`, `consumables.py` | case analysis; heap for the shared table |
| C55 | Two vacuums never share consumable data | partial | `Vacuum_Props.v` | `clean.py`, `cleanrecords.py`, `consumables.py` | case analysis; heap for the shared table |
| C56 | Alarm parameters are validated and converted | partial | `Gadget_Props.v` | thermostat, alarm, energy, power protection, firmware of SMART devices | case analysis; device as a state |
| C57 | Firmware update stops only on a definite state | proved | `Gadget_Props.v` | thermostat, alarm, energy, power protection, firmware of SMART devices | case analysis; device as a state |
| C58 | Device type detection is total and deterministic | partial | `DevType_Props.v` `Factory_Props.v` | device types and device info; `deviceconfig.py`, `device_factory.py`, class and protocol tables, connect with fault points, try-all | case analysis over strings; case analysis over the finite tables; round trip; fault-point induction |
| C59 | Child lookup finds the right child or nothing | partial | `Strip_Props.v` | `iotstrip.py` switching, child lookup, on-since | induction over sockets |
| C60 | Camera child replies are matched to their methods | partial | `Child_Props.v` | `_ChildProtocolWrapper`, `_ChildCameraProtocolWrapper` | induction over responses |
| C61 | A stored KLAP credentials hash is as good as the credentials | proved | `Klap_Props.v` | `transports/klaptransport.py`: hashes as oracles, both handshakes, session arithmetic, state machine | case analysis; invariants over event histories |
| C62 | Failures of a KLAP send are library exceptions | partial | `Klap_Props.v` | `transports/klaptransport.py`: hashes as oracles, both handshakes, session arithmetic, state machine | case analysis; invariants over event histories |
| C63 | A camera only gets credentials and requests in the right order | partial | `Cam_Props.v` | `transports/sslaestransport.py`: both handshakes, plain login, tags, sequence numbers, reset | invariants over event histories; refutation witnesses |
| C64 | Trying every connection tries each combination once and leaves none open | partial | `Factory_Props.v` | `deviceconfig.py`, `device_factory.py`, class and protocol tables, connect with fault points, try-all | case analysis over the finite tables; round trip; fault-point induction |
| C65 | The device class and the protocol of a connection belong together | partial | `Factory_Props.v` | `deviceconfig.py`, `device_factory.py`, class and protocol tables, connect with fault points, try-all | case analysis over the finite tables; round trip; fault-point induction |
| C66 | Discovery sends a bounded number of rounds and stops when the target answered | partial | `Disc_Props.v` | `discover.py`: datagram protocol as a step function, rounds, single-host discovery | invariants over datagram lists |
| C67 | A discovered device carries the caller's settings and can be talked to | partial | `Disc_Props.v` | `discover.py`: datagram protocol as a step function, rounds, single-host discovery | invariants over datagram lists |
| C68 | HTTP sessions are owned by exactly one side | proved | `Http_Props.v` | `httpclient.py`: error mapping, request spacing, session ownership | case analysis; history induction |
| C69 | A failed first update can be repeated | partial | `Smod_Props.v` | `smart/smartmodule.py` and the update loop of `smartdevice.py`: back-off, disabling, data selection | history induction |
| C70 | Module data stay available between updates | partial | `Smod_Props.v` | `smart/smartmodule.py` and the update loop of `smartdevice.py`: back-off, disabling, data selection | history induction |
| C71 | An unreachable child does not break its hub | partial | `Children_Props.v` | child list processing and child updates of `smartdevice.py` | history induction |
| C72 | SMART light commands are validated | partial | `SmartLight_Props.v` | SMART light modules: brightness, colour, temperature, state, transitions, presets | case analysis; device oracle as a state |
| C73 | Dimmer configuration stays within bounds | proved | `IotLight_Props.v` | `iotbulb.py`, `iotdimmer.py`, `iot/modules/light.py`, dimmer configuration | case analysis |
| C74 | Thermostat commands stay within bounds | proved | `Gadget_Props.v` | thermostat, alarm, energy, power protection, firmware of SMART devices | case analysis; device as a state |
| C75 | Vacuum commands fit the state | proved | `Vacuum_Props.v` | `clean.py`, `cleanrecords.py`, `consumables.py` | case analysis; heap for the shared table |
| C76 | Selecting a light strip effect makes it the reported effect | proved | `Effect_Props.v` | light effect modules, effect tables | finite tables; base64 round trip |
| C77 | Legacy LED and motion settings mean what they say | proved | `Sensor_Props.v` | `motion.py`, MAC normalisation, legacy LED | case analysis; integer arithmetic |
| C78 | Device info splits versions, models and regions faithfully | partial | `DevType_Props.v` | device types and device info | case analysis over strings |
| C79 | Camera info keys are renamed without loss | proved | `DevType_Props.v` | device types and device info | case analysis over strings |
| C80 | Camera queries answer every method and return whole lists | partial | `CamQuery_Props.v` | `smartcamprotocol.py` queries | induction |
| C81 | Single camera requests return exactly the section asked for | partial | `CamQuery_Props.v` | `smartcamprotocol.py` queries | induction |
| C82 | Camera switches read back as set and leave others alone | proved | `CamMod_Props.v` | camera modules and pairing | case analysis; device as a state; induction |
| C83 | A camera is on exactly when its privacy mask is off | proved | `CamMod_Props.v` | camera modules and pairing | case analysis; device as a state; induction |
| C84 | Camera siren commands are validated | partial | `CamMod_Props.v` | camera modules and pairing | case analysis; device as a state; induction |
| C85 | Stream URLs carry the right credentials unambiguously | partial | `CamMod_Props.v` | camera modules and pairing | case analysis; device as a state; induction |
| C86 | Pairing returns exactly the devices that became children | proved | `CamMod_Props.v` | camera modules and pairing | case analysis; device as a state; induction |
| C87 | Camera motors and battery report faithfully | partial | `CamMod_Props.v` | camera modules and pairing | case analysis; device as a state; induction |
| C88 | A device has exactly the modules it offers | proved | `Feats_Props.v` | module discovery, features, lookup | induction; finite tables |
| C89 | After a successful update every feature is available | partial | `Feats_Props.v` | module discovery, features, lookup | induction; finite tables |
| C90 | Feature lookup tells what a module supports | partial | `Feats_Props.v` | module discovery, features, lookup | induction; finite tables |
| C91 | Fan speed is checked, applied and read back | proved | `Small_Props.v` | fan, dustbin, mop, speaker, auto-off, LED, locks, sensors | device as a state; case analysis |
| C92 | Vacuum accessories are set by name and read back | proved | `Small_Props.v` | fan, dustbin, mop, speaker, auto-off, LED, locks, sensors | device as a state; case analysis |
| C93 | Auto-off, LED, lock and frost settings change only what was asked | partial | `Small_Props.v` | fan, dustbin, mop, speaker, auto-off, LED, locks, sensors | device as a state; case analysis |
| C94 | Sensor readings say what the device reports | proved | `Small_Props.v` | fan, dustbin, mop, speaker, auto-off, LED, locks, sensors | device as a state; case analysis |
| C95 | The time of the last water leak can be read | partial | `Small_Props.v` | fan, dustbin, mop, speaker, auto-off, LED, locks, sensors | device as a state; case analysis |
| C96 | A SMART device's clock is read and set right | partial | `Clock_Props.v` | SMART and camera clocks and time zones | date arithmetic; case analysis |
| C97 | A camera's clock is read and set right | partial | `Clock_Props.v` | SMART and camera clocks and time zones | date arithmetic; case analysis |
| C98 | A vacuum only gets requests inside a live login session | partial | `Ssl_Props.v` | `transports/ssltransport.py` | invariants over event histories |
| C99 | Legacy camera requests survive their encodings | proved | `Linkie_Props.v` | `transports/linkietransport.py` | round trip |
| C100 | Applying a light preset makes it the current one | partial | `Preset_Props.v` | applying presets on SMART and legacy lights | case analysis |
| C101 | Concurrent queries on one legacy device do not disturb each other | proved | `Conc_Props.v` | any number of tasks on one legacy protocol: lock, connection, cancellation, interleaved steps | invariants over all schedules |
| C102 | Disconnecting leaves no connection to a legacy device | partial | `Conc_Props.v` | any number of tasks on one legacy protocol: lock, connection, cancellation, interleaved steps | invariants over all schedules |
| C103 | Concurrent queries through one device object are as if made one at a time | proved | `Serial_Props.v` | tasks on one protocol object as an interleaving of atomic steps | refinement to a serial run |
| C104 | Names, networks and credentials cross unchanged | partial | `Setup_Props.v` | alias, wifi, credentials, location, hardware facts | round trips; case analysis |
| C105 | Joining a network is asked once and with everything needed | partial | `Setup_Props.v` | alias, wifi, credentials, location, hardware facts | round trips; case analysis |
| C106 | Location, signal and hardware facts are the reported ones | partial | `Setup_Props.v` | alias, wifi, credentials, location, hardware facts | round trips; case analysis |
| C107 | A KLAP device that knows the credentials is talked to as if directly | partial | `KlapPeer_Props.v` `Klap_Props.v` | joint runs of the KLAP client model with a specified device; `transports/klaptransport.py`: hashes as oracles, both handshakes, session arithmetic, state machine | simulation relation between the client session and the device session; case analysis; invariants over event histories |
| C108 | A device behind secure passthrough is talked to as if directly | proved | `AesPeer_Props.v` | joint runs of the AES client model with a specified device | simulation relation between the client session and the device session |
| C109 | An encrypted camera is talked to as if directly | proved | `CamPeer_Props.v` | joint runs of the camera client model with a specified camera | simulation relation between the client session and the device session |
| C110 | A whole query, from the protocol to the device and back, is a call of the device | proved | `Stack_Props.v` | the protocol models over the transport models over the specified devices | two-run simulation of the protocol program, instantiated with the joint runs of each transport |
| C111 | A vacuum is talked to as if directly | proved | `SslPeer_Props.v` | joint runs of the vacuum client model with a specified device | simulation relation between the client session and the device session |
| C112 | A legacy device on its TCP connection is talked to as if directly | proved | `XorPeer_Props.v` | joint runs of the TCP client model with a specified device | invariant of the connection over joint runs |
| C113 | A legacy camera is talked to as if directly | proved | `LinkiePeer_Props.v` | joint runs of the legacy camera client model with a specified camera | induction over joint runs |
| C114 | A whole query is a call of the device over every other transport too | proved | `Stack2_Props.v` | the protocol models over the remaining transport models over the specified devices | the simulation of Stack instantiated with the joint runs of each transport |
| C115 | A child behind a hub is talked to as if directly | proved | `Hub_Props.v` | `_ChildProtocolWrapper` and `_ChildCameraProtocolWrapper` over the query loop, with hubs specified as relays | computation through the wrapped query, induction over programs, composition with Stack |
| C116 | Queries to a child keep the promises of queries | partial | `Hub_Props.v` | `_ChildProtocolWrapper` and `_ChildCameraProtocolWrapper` over the query loop, with hubs specified as relays | computation through the wrapped query, induction over programs, composition with Stack |
| C117 | A stored credentials hash is as good as the credentials | partial | `Creds_Props.v` | constructors and `credentials_hash` of all transports, with the configuration dictionary | case analysis per transport, composed with the dictionary round trip of C21 |
| C118 | A login carries the account that was given | proved | `Creds_Props.v` | constructors and `credentials_hash` of all transports, with the configuration dictionary | case analysis per transport, composed with the dictionary round trip of C21 |
| C119 | Discovery datagrams are read and encrypted answers understood | proved | `Probe_Props.v` | the datagrams of `do_discover`, `_AesDiscoveryQuery`, `_decrypt_discovery_data`, with the key pair as state | byte-level computation, induction over histories |
| C120 | The handshake key pair is kept | proved | `Keys_Props.v` | the key pair of `AesTransport` and `KeyPair`, with the configuration dictionary | invariant over histories of handshakes and storing |
| C121 | Lights read back as they were set | partial | `Scene_Props.v` | what lights report (`iotbulb.py`, `iotdimmer.py`, `iotplug.py`, `smartdevice.py`, the light modules), with lights specified by what they take and report | induction over calls, composed with the command theorems of IotLight and SmartLight |
| C122 | A saved light state can be restored | partial | `Scene_Props.v` | what lights report (`iotbulb.py`, `iotdimmer.py`, `iotplug.py`, `smartdevice.py`, the light modules), with lights specified by what they take and report | induction over calls, composed with the command theorems of IotLight and SmartLight |
| C123 | The command line tool uses the device its options name, or refuses | partial | `Cli_Props.v` | the option handling of the command line tool (`cli/main.py`), `discover` and the look-up by name (`cli/discover.py`), over a world that answers every network operation | case analysis over the options, invariants over the log of operations, induction over rounds of answers |
| C124 | The options shown by discover config reconnect | proved | `Cli_Props.v` | the option handling of the command line tool (`cli/main.py`), `discover` and the look-up by name (`cli/discover.py`), over a world that answers every network operation | case analysis over the options, invariants over the log of operations, induction over rounds of answers |
| C125 | A device is found by its name | partial | `Cli_Props.v` | the option handling of the command line tool (`cli/main.py`), `discover` and the look-up by name (`cli/discover.py`), over a world that answers every network operation | case analysis over the options, invariants over the log of operations, induction over rounds of answers |
| C126 | Editing a light preset changes exactly that preset | partial | `Command_Props.v` | the commands `light`, `schedule`, `feature` and `hub unpair` of the command line tool, the turn-on behaviour of legacy bulbs (`iot/iotbulb.py`) and rule lists (`iot/modules/rulemodule.py`) | case analysis over the arguments, induction over presets and rules |
| C127 | Turn-on behaviour reads as reported and is written so that the bulb understands it | partial | `Command_Props.v` | the commands `light`, `schedule`, `feature` and `hub unpair` of the command line tool, the turn-on behaviour of legacy bulbs (`iot/iotbulb.py`) and rule lists (`iot/modules/rulemodule.py`) | case analysis over the arguments, induction over presets and rules |
| C128 | Rules are listed in full and deleted by identity | partial | `Command_Props.v` | the commands `light`, `schedule`, `feature` and `hub unpair` of the command line tool, the turn-on behaviour of legacy bulbs (`iot/iotbulb.py`) and rule lists (`iot/modules/rulemodule.py`) | case analysis over the arguments, induction over presets and rules |
| C129 | A command acts once, as asked, or refuses and does nothing | partial | `Command_Props.v` | the commands `light`, `schedule`, `feature` and `hub unpair` of the command line tool, the turn-on behaviour of legacy bulbs (`iot/iotbulb.py`) and rule lists (`iot/modules/rulemodule.py`) | case analysis over the arguments, induction over presets and rules |
| C130 | Energy and usage statistics are of the period meant | partial | `Stats_Props.v` | periodic statistics of legacy devices and strips (`iot/modules/usage.py`, `emeter.py`, `iot/iotstrip.py`) over a clock that may advance between any two readings, and the `energy` command | refinement of a meter with an arbitrary history, induction over sockets |
| C131 | Statistics of a strip are the sums over its sockets | partial | `Stats_Props.v` | periodic statistics of legacy devices and strips (`iot/modules/usage.py`, `emeter.py`, `iot/iotstrip.py`) over a clock that may advance between any two readings, and the `energy` command | refinement of a meter with an arbitrary history, induction over sockets |
| C132 | The energy command does what its options say | partial | `Stats_Props.v` | periodic statistics of legacy devices and strips (`iot/modules/usage.py`, `emeter.py`, `iot/iotstrip.py`) over a clock that may advance between any two readings, and the `energy` command | refinement of a meter with an arbitrary history, induction over sockets |
| C133 | The time commands leave the device's clock right or refuse | partial | `Sync_Props.v` | the `time` commands (`cli/time.py`), composed with the clock of SMART devices | case analysis and arithmetic over instants and offsets |
| C134 | A discovery call ends cleanly | partial | `DiscEnd_Props.v` | the end of `Discover.discover` and of the waiting part of `discover_single` as a machine of events: replies, the end of the sending task and of callback tasks, cancellation of the caller, loss of the socket, resumption, closing of devices | invariants over all event sequences (induction on the history); liveness from the state in which all tasks have ended; refutations by explicit schedules |
| C135 | Updating a hub brings its children up to date | partial | `Family_Props.v` | `SmartDevice.update` with its children: `_initialize_children`, `_update_children_info`, `_create_delete_children`, `_update_internal_state` and the children's own updates, over the module cycle of Smod; making a child is a parameter | induction over the list of children and over the children updated; refutation by a run of three updates |
| C136 | An update shows what setters changed, even when they overlap | partial | `Overlap_Props.v` | `SmartDevice.update` (after the first), the fallback to single queries and `allow_update_after` as coroutines interleaved at their queries, over the module cycle of Smod; a query of several methods sees one state of the device | invariant over all interleavings; refutations by runs; equality with the sequential model when nothing overlaps |
| C137 | The tool's output and exit status tell what happened | partial | `Out_Props.v` | `echo`, `error`, `json_formatter_cb` with `to_serializable`, `CatchAllExceptions` and the exit statuses; the commands that print directly; text form of JSON and standard error left out | induction over Python values; case analysis over the ways to end; refutations for all messages |
| C138 | After an update a legacy device object shows the device as it is, even when updates overlap | partial | `IotUpd_Props.v` | `IotDevice.update` and `_modular_update` as coroutines that take the first-come-first-served query lock in turn; module tables of bulbs and plugs; hooks of modules left out | invariants over the queue of updates under way (position and requests left), for all histories; refutation for all histories |
| C139 | Before its first update an object shows what discovery told, or asks for an update | partial | `Fresh_Props.v` | legacy, SMART and camera objects before their first update: `requires_update`, `update_from_discover_info` and the properties read (`iot/iotdevice.py`, `iotplug.py`, `iotbulb.py`, `iotstrip.py`, `iotcamera.py`, `smart/smartdevice.py`, `smartcam/smartcamdevice.py`) | case analysis over properties and kinds of device, comparison of the discovered object with the updated one, witnesses for the refutations |
| C140 | Requests go to the configured host and port | partial | `Where_Props.v` | the host, port and URL handling of the six transports (`transports/*.py`) and `Device.host`; the outcome of each exchange and the clock are inputs | an invariant over all histories that every stored URL and connection was made for one host and port, and a reader for the host part of URLs |
| C141 | The text of a feature tells its value, and the listing shows every feature once | partial | `Show_Props.v` | `Feature.__repr__` (`feature.py`) and the feature listing (`cli/feature.py`); printing of single values, rounding and the text of exceptions are parameters | a reader for marked texts, induction over the choices, permutation of the listing with the features |
| C142 | Settings made one after another all take effect | partial | `Series_Props.v` | 25 setters of SMART modules over what the last update showed, a device that merges what it is sent, updates of any subset of records, changes by others | refinement: invariant relating object, device and a last-writer-wins view, induction over histories |
| C143 | What is said about new firmware is true of the device | partial | `Upgrade_Props.v` | the firmware status of `smart/modules/firmware.py`: the reader of the reply, the check, what is said, and installations, over a device, its maker and its cloud connection | induction over histories, against the last check that counts |
| C144 | A module tells truly whether an attribute can be used | partial | `Bound_Props.v` | `has_feature` and `get_feature` (`module.py`) with their cache, and tables of the marked attributes and declared features of thirteen module classes | case analysis over the tables for all devices, invariants of the cache over histories |
| C145 | Old names still mean what they were replaced by | partial | `Old_Props.v` | Device.__getattr__ and its tables, Light.__getattr__, Energy.__getattr__, kasa.__getattr__; the names each module class defines; reading a defined attribute is an unknown of the device | case analysis over the tables and module classes, for every device; refutations by computation |
| C146 | A device object over the network shows what the device says | partial | `Whole_Props.v` | `SmartDevice.update` and the setters of modules as programs that make queries, over the protocols, transports and devices of Stack and Stack2; without children | programs are equivalent to the lists of queries they make, then composition with Stack, Smart (exact answers) and Smod (histories of modules) |
| C147 | Updates and commands of a legacy device over the network do what they would with the device at hand | proved | `WholeIot_Props.v` | IotDevice.update, _modular_update and _query_helper as programs of queries over IotProtocol.query, on the TCP, KLAP and legacy camera transports with their devices | transfer of lists of queries (Stack, Stack2) to programs; the plan of requests asks for exactly what is wanted; the replies merged by the latest value |
| C148 | A hub and its children show what the hub and the children say | proved | `WholeHub_Props.v` | SmartDevice.update with children and SmartChildDevice._update as programs of queries to the hub and, through it, to its children, over SmartProtocol and the KLAP and AES transports with their devices | programs inside programs; transfer of lists of hub queries (Hub) to programs; induction over the children; composition with Family and Whole |
| C149 | On, off and toggle of the tool do what they say to the device or child named, and nothing else | partial | `Power_Props.v` | on, off and toggle of the tool with its child options (cli/device.py:102-130, cli/common.py:117-164) over the is_on, turn_on and turn_off of all device classes; the output is not modelled | a device that takes the messages (Power_Spec.takes) is followed through each case; for strips induction over the sockets |
| C150 | Commands of the modules of legacy devices reach their own service and nothing else | partial | `Service_Props.v` | the commands of the rule, usage, energy, light sensor and cloud modules of legacy devices and the services each class gives its modules (`iot/modules/*.py`, `iotmodule.py`, the device classes) | a device of services and sockets that takes requests (Service_Spec.takes); case analysis over the commands, induction over histories |
| C151 | A setting takes what it advertises, shows what was set, and what it showed can be put back | partial | `Setting_Props.v` | the 30 number and choice features other than those of lights: advertised range or choices, getter, setter, and the check in Feature.set_value between them | case analysis over the settings with a frame lemma (fields a setter may change, fields a getter reads) and a disjointness table checked by computation for all 900 pairs |
| C152 | Renaming, rebooting, resetting and raw commands reach just the object meant | partial | `Manage_Props.v` | set_alias, reboot, factory_reset of all kinds of objects incl. children through their wrappers; the tool's alias, command, reboot, factory-reset and update-credentials | case analysis on the kind of object, over any device given by what requests make of it and what updates read |
| C153 | The discover commands tell what became of every device that answered | partial | `Table_Props.v` | the callbacks of discover detail, list and raw of the tool as concurrent tasks around a semaphore, and what they print | invariant over all interleavings |
| C154 | A camera object over the network shows what the camera says | partial | `WholeCam_Props.v` | SmartCamDevice.update as a program of queries: negotiation, component list, child lists, information under common names, module queries and the data the modules give, over SmartCamProtocol, SslAesTransport and a camera; the state of child devices is not part of it | transfer of program runs over the network to runs against the camera itself (Stack, CamPeer), then the honest-device theorems of Smart and CamQuery for each query, and case analysis over the update |
| C155 | What is written about a device for publication has nothing private in it | partial | `Dump_Props.v` | devtools/dump_devinfo.py: the wrapping of the redactors, the calls that are tried, the final calls in batches, the replacement of the ids of the children, the files for devices, cameras, children and legacy devices, as functions of what the device answers; the file names are oracles; printing and saving are left out | hiding of each category of value by cases on the tables; paths through redaction and replacement (kept, publishable); for a device with fixed answers the batches concatenate to the whole |
| C156 | The files about a device have all it answered, and name its children consistently | partial | `Dump_Props.v` | devtools/dump_devinfo.py: the wrapping of the redactors, the calls that are tried, the final calls in batches, the replacement of the ids of the children, the files for devices, cameras, children and legacy devices, as functions of what the device answers; the file names are oracles; printing and saving are left out | hiding of each category of value by cases on the tables; paths through redaction and replacement (kept, publishable); for a device with fixed answers the batches concatenate to the whole |
| C157 | A camera hub and its children show what the hub and the children say | partial | `CamHub_Props.v` | SmartCamDevice.update with its children as a program of queries to the hub and through it to the children: _update_children_info, _create_delete_children, _try_create_child with both kinds of children, _map_child_info_from_parent, SmartChildDevice._update for cameras and others; features are not part of it | the hub part by WholeCam; the loops over lists and children by induction with an invariant on the objects; children behind the hub against children at hand by Hub, and the network by CamPeer and Stack |
| C158 | The decoder of encrypted captures shows exactly the requests that were sent | partial | `Sniff_Props.v` | devtools/parse_pcap_klap.py (all of it but the command line and pyshark) and devtools/parse_pcap.py; packets are records of the fields the tools read, JSON and UTF-8 are oracles | induction over a relation between captures and conversations (any handshakes, requests, other packets), with the session and cipher lemmas of Klap and Xor; refuted with every capture a client makes |
| C159 | The decoder of legacy captures lists every message and counts them correctly | partial | `Sniff_Props.v` | devtools/parse_pcap_klap.py (all of it but the command line and pyshark) and devtools/parse_pcap.py; packets are records of the fields the tools read, JSON and UTF-8 are oracles | induction over a relation between captures and conversations (any handshakes, requests, other packets), with the session and cipher lemmas of Klap and Xor; refuted with every capture a client makes |
| C160 | Every reading of a module is the field in which the device keeps it | partial | `Read_Props.v` | all properties of 28 SMART module classes: the requests of each, by version, and each reading on top of SmartModule.data (with the parent fallback) or of the device information | a specification table saying in which field of which answer the device keeps each reading; data is shown to hold exactly the answers to the requests, then reading by reading; composed with the update over a protocol |
| C161 | Every reading of a camera's module is the field in which the camera keeps it | partial | `CamRead_Props.v` | the values that the modules of cameras show, as functions of the last answers and the basic information | each reading compared with a table of where cameras keep it; both layouts of answers; composed with the update of a camera object |
| C162 | Every reading of a legacy module is what the device last replied | partial | `IotRead_Props.v` | Motion, AmbientLight, Dimmer, Usage, Cloud, Led readings of legacy modules, IotModule.data, get_pir_state (kasa/iot/modules, kasa/iot/iotmodule.py) | each reading agrees with a table of where the device keeps it; composed with the update of C147 |
| C163 | Every feature a device offers has an id of its own and shows the field it is named for | partial | `Offer_Props.v` | the `_initialize_features` of SmartDevice, SmartCamDevice, SmartModule and all their modules, `_add_feature` and `Feature.value` for features that show readings | one table of rows (module, id, condition, getter) compared with a specification by reflection; composed with the choice of modules (Feats) and the readings (Read, CamRead) |
| C164 | The features of a legacy device are those its kind and its answers call for, and show what it replied | partial | `OfferIot_Props.v` | the modules each kind of legacy device adds, which of them are supported, the hook of the meter, the features of the modules and of the device, values of the readings, relay, signal and meter; a strip's meter and the hooks of Time, Light and LightPreset are not | a table of the features compared with the specification by computation; the first-update law of Feats; the readings through the claims on legacy readings and meter units |
| C165 | A device is called what it last said, and its text never raises | partial | `Name_Props.v` | alias, model and repr of SMART devices, their children and legacy devices through discovery and updates that succeed, are refused or not answered | an invariant over histories of events, induction on the history; device infos through C78 |
| C166 | A camera is called what it last said, and so is a camera on a hub | partial | `CamName_Props.v` | alias, model, kind and text of camera objects through any history of updates, and of cameras on a hub (smartcamdevice.py, smartcamchild.py, device.py) | invariant over the history of updates; the renaming of keys is shown to keep name and kind |
| C167 | A camera that refuses a login says why | partial | `CamWhy_Props.v` | The camera transport of C17 and C63 (Cam_Model); the reason a reply gives is specified in CamWhy_Spec. | Case analysis of the greeting and the proof from any state without a session; an invariant on the user name over all histories (CamWhy_Proofs, CamWhy_Props). |
| C168 | When a device was switched on, and when it will switch itself off, are the right moments | partial | `When_Props.v` | on_since of SMART devices, legacy devices and sockets with the value kept between readings, and auto_off_at, on dates with a zone as in Clock_Model, with the arithmetic of the standard library (When_Model). | Equivalence with the zone being unchanged between two instants; induction over the readings; databases with a change as witnesses (When_Props). |

57 properties proved, 111 partial; 855 theorems are claimed.

## Where the code falls short of the property

Each of these has a machine-checked witness (a `_refuted` theorem) unless the note says the proof covers only a part.

* **C07** A multi-method SMART query answers every method asked. Holds for every batch size other than 1, with the exact values for any device that answers truthfully. With batch size 1 (configured, or set for good after one refused batch) the code violates it: methods that must be sent alone get no entry, and a reply without result is an uncaught KeyError; both are proved as _refuted theorems. (`smart_unbatched_drops_method_refuted`, `smart_unbatched_no_result_refuted`)
* **C08** List paging fetches the whole list. Holds for single-method queries and for methods answered inside a batch. The code violates it for a list method that has to be asked again alone: only its first page is returned. Later pages also drop the parameters of the original request. (`smart_requeried_list_truncated_refuted`, `smart_page_drops_params_refuted`)
* **C10** Redaction removes every sensitive value and nothing else. redact_data itself is proved for every table and value, with non-interference for the keys that are masked by a constant. The real tables do not hide everything: identifiers keep everything from the tenth character on, and a legacy strip's socket entries keep the sensitive keys nested in them; both are proved as _refuted theorems. That the argument is not modified is built into the functional model. (`redact_id_tail_refuted`, `redact_children_refuted`)
* **C15** AES transport sends user requests only over an established, logged-in session. Proved for all histories in which every key the device offers in a successful handshake reply is usable (32 bytes after RSA decryption). Without that the property is false: aes_order_unusable_key_refuted gives a history in which a request is posted under an expired session's key, without token, handshake or login. (`aes_order_unusable_key_refuted`)
* **C17** Camera (SSL-AES) transport recovers after reset. Proved for every history in which no device accepted a less secure login or the default user name. Otherwise the code violates the property: after an accepted less secure login all later requests are posted unencrypted, even after a reset and a completed encrypted handshake, and an accepted default user name replaces the configured one for good; both are _refuted theorems. (`cam_reset_stays_plain_refuted`, `cam_reset_keeps_default_user_refuted`)
* **C19** A valid discovery reply is never lost because of an earlier stray datagram. Holds when the reply is the first datagram of its host. Refuted in general: a stray datagram of the host from any port, or an unreadable one, makes every later reply ignored. (`stray_datagram_refuted`, `unreadable_first_refuted`)
* **C20** Single-host discovery returns the host or a definite error. The outcome as a function of the first datagram of the host. Refuted: a reply whose handling raises something else than a library error (such as a legacy camera) ends in TimeoutError. (`single_timeout_refuted`)
* **C21** Device configuration survives serialisation. Exact round trip for every configuration that has a timeout. Refuted without one: None is omitted and restored as five seconds. The credentials control is proved in full. The library conversion (mashumaro) is modelled for the JSON types it emits. (`config_timeout_refuted`)
* **C25** HTTP errors map to library errors and requests are spaced. Holds: every failure other than the total timeout is reported as the library exception of its kind, replies are passed through, and the gap is kept between requests once an OS error was seen as long as requests end in a reply or an OS error. Refuted: a total timeout surfaces as plain KasaException instead of TimeoutError, and the gap is not kept after requests that ended in a timeout. (`total_timeout_refuted`, `http_gap_refuted`)
* **C26** A feature never passes an invalid value to its setter. Holds for every value other than NaN against the range the feature has read. Refuted: NaN passes the range check, and the range is read once per feature so it is stale after the device changes it. (`feature_nan_refuted`, `feature_stale_range_refuted`)
* **C28** Module data is exactly the device's reply for its own queries. Refuted: a missing reply to a method other than the module's first goes unnoticed (and may unwrap the data). Everything else holds, and camera modules satisfy the full property. (`module_data_missing_refuted`)
* **C30** Reported on-time start is stable. Holds: any number of readings that differ by at most 5 s report one instant, later starts are reported, off reports nothing. Refuted: setting the device clock forward is reported as a new start, setting it back leaves a wrong start, and a strip socket that is on without a counter raises KeyError. (`on_since_clock_refuted`, `on_since_socket_refuted`)
* **C32** Merging queries never loses a command. Later values win only where both sides are of the same kind: a non-empty mapping merged over a plain value raises, and an empty one leaves the plain value (merge_conflict_refuted). Everything else holds for all nested mappings. (`merge_conflict_refuted`)
* **C33** A legacy command either returns its own payload or raises. Holds for replies made of mappings; a reply with another type in place of a mapping escapes with TypeError (command_raises_refuted). (`command_raises_refuted`)
* **C34** Sockets of a legacy strip keep their own data. A socket asks only for itself and for everything its modules want (socket_update_asks). Violated by the code: sockets share the strip's inner reply objects, so for every module the strip itself has a reply for all sockets report the last writer's data (sockets_share_data). Proved for the other modules, e.g. energy. (`socket_own_data_refuted`)
* **C36** Strip energy figures aggregate the sockets. Sums proved. Refuted: sockets that report volts (not millivolts) have them summed, not averaged; a strip without sockets divides by zero. Floats are rationals: rounding not modelled. (`strip_empty_refuted`, `strip_voltage_sum_refuted`)
* **C37** Energy readings have one meaning in every unit. Consistency of units proved; an unreported quantity reads as absent in base units only (KeyError in milli units), and a field whose name merely begins alike is read as the quantity. (`readings_absent_refuted`, `readings_prefix_refuted`)
* **C38** Usage statistics conversion keeps the right entry. Proved for lists in one unit; refuted for lists with mixed units (KeyError). (`statistics_refuted`)
* **C39** Saving a light preset addresses the preset it names. The listed name and the slot agree when no effect is stored before the preset; refuted otherwise (the index counts presets only), and SMART saving drops colours for good once a preset without colours was seen. (`iot_save_refuted`, `smart_save_refuted`)
* **C40** Dimmer commands are validated and never switch off by accident. Brightness and transition commands proved for all arguments. Refuted: button and fade settings are sent under the printed enum member instead of the documented name; switching on with a transition from a stored brightness of zero sends zero. (`dimmer_on_zero_refuted`, `button_names_refuted`, `fade_names_refuted`)
* **C41** Bulb commands are validated. All single setters proved exactly. Refuted for setting a whole light state: only the brightness is checked. (`state_unchecked_refuted`)
* **C43** Setting a SMART light state never sends contradictory power. device_on is right and the set fields are sent for every state; refuted: with brightness zero, light_on is sent as well, and transition always is. (`state_call_refuted`)
* **C44** Legacy timezone index and name correspond. The table is total and one to one, a zone of the table has its own index, other zones get the first that agrees with them on the days compared, and setting the clock sends the index to a device whose reported index differs. Refuted parts: a device that has not reported an index is never told one; only 365 days are compared; a zone that is no ZoneInfo and matches nothing raises UnboundLocalError (zone_index). (`zone_setting_refuted`, `leap_day_refuted`)
* **C45** Motion sensor percentages are in range. For calibrations from 0 every reading is in range except the highest of an odd range; the triggering rule holds for all. Refuted for odd maxima (4095), for ranges not starting at 0, and for empty ranges (ZeroDivisionError). (`motion_percent_refuted`)
* **C46** MAC addresses are normalised. Always colon separated pairs denoting the same bytes for the three raw formats; refuted for upper case: a mac without separators is reported in lower case. (`mac_refuted`)
* **C47** Child requests reach only the child and replies are unwrapped. Addressing and unwrapping are proved for every hub that relays the child's own replies, in any order. The code violates the property for a reply that lacks a requested method (silently absent), for an overall error code that accompanies a list of replies (ignored) and for an empty request; each is a _refuted theorem. (`child_missing_method_refuted`, `child_error_ignored_refuted`, `child_empty_request_refuted`)
* **C49** Light effect names are recovered. Every name written empty, in base64 or in text that is not base64 is recovered, and selecting it writes and enables that effect. Refuted: plain names that happen to be base64 are misread or fail the update; changing the brightness sends the name back in plain; of equal names only the last is selectable. (`effect_plain_refuted`, `effect_rename_refuted`, `effect_same_name_refuted`)
* **C50** Thermostat mode reflects the device. Off under frost protection, Idle for no states, otherwise the first known state; refuted: a low battery alone gives Unknown instead of Idle. (`thermostat_refuted`)
* **C53** Vacuum status reflects the last reply. The error is the first listed one and the status follows, independently of the past; refuted: processing the same reply again forgets the error, and an error after a zero goes unnoticed. (`vacuum_again_refuted`, `vacuum_second_refuted`)
* **C54** Cleaning records can be re-read. A fresh reply is read exactly; refuted: processing it a second time raises. (`clean_records_refuted`)
* **C55** Two vacuums never share consumable data. Right after its own update a device shows its own values, whatever happened before; refuted: any other vacuum's update replaces them. (`consumables_refuted`)
* **C56** Alarm parameters are validated and converted. Refuted: a volume given as a number is stored as that number instead of its name. (`alarm_volume_refuted`)
* **C58** Device type detection is total and deterministic. Exactly one type by a fixed order of rules, for all families; missing system info or type is a library error. Refuted: unknown families and types become plugs instead of errors, and a legacy camera raises KeyError. (`smart_unknown_refuted`, `iot_unknown_refuted`)
* **C59** Child lookup finds the right child or nothing. All lookups specified exactly. Refuted: with aliases that differ in capitals only, the exact alias may return the other child. (`child_alias_refuted`)
* **C60** Camera child replies are matched to their methods. Replies are matched by position: proved exact when the hub answers one for one in order; any other order mislabels replies and missing replies leave methods without entry (_refuted). (`cam_child_order_refuted`, `cam_child_missing_refuted`)
* **C62** Failures of a KLAP send are library exceptions. Violated in exactly three cases, proved reachable: the message counter at 2^31-1 (struct.error, and again for every later send until the session expires), a TIMEOUT cookie that is no integer, and a decrypted answer that is not JSON. (`klap_counter_exhausted_refuted`, `klap_value_error_refuted`)
* **C63** A camera only gets credentials and requests in the right order. Proved for every history whose devices are of one kind: none grants a less secure login, or none grants an encrypted session. For mixed histories it is false (cam_reset_stays_plain_refuted). Hash functions and AES are parameters. (`cam_reset_stays_plain_refuted`)
* **C64** Trying every connection tries each combination once and leaves none open. Everything except the login versions: both share a key, so only login version 2 is ever tried; legacy bulbs over KLAP are only tried as plugs. (`try_all_login_refuted`, `try_all_bulb_refuted`)
* **C65** The device class and the protocol of a connection belong together. Exact characterisation of the combinations for which the class fits the protocol; others (a camera without TLS, a plug with AES over TLS, a KLAP hub over TLS) are mismatched. (`class_and_protocol_refuted`)
* **C66** Discovery sends a bounded number of rounds and stops when the target answered. Refuted for the last clause: the search may be called off with nothing recorded for the target. (`called_off_refuted`)
* **C67** A discovered device carries the caller's settings and can be talked to. Settings and protocol selection proved for every reply; refuted that there always is a protocol (a legacy reply naming a SMART type). (`discovered_without_protocol_refuted`)
* **C69** A failed first update can be repeated. Refuted: after a failed first update later updates skip the negotiation, so the device never gets modules. (`failed_start_refuted`)
* **C70** Module data stay available between updates. Holds for devices. Refuted for children: each request replaces all earlier replies, so asking for one module makes the data of the others unreadable. (`child_data_refuted`)
* **C71** An unreachable child does not break its hub. Refuted: an unreachable SMART child raises UnboundLocalError out of the hub's update. (`camera_hub_unreachable_refuted`)
* **C72** SMART light commands are validated. Setters proved exactly; refuted: the brightness given with a temperature, and all fields of a light state, are unchecked. (`smart_unchecked_refuted`)
* **C78** Device info splits versions, models and regions faithfully. Holds for families with exactly one dot; any other family makes the info unavailable with ValueError. (`smart_device_info_refuted`)
* **C80** Camera queries answer every method and return whole lists. Holds while the camera answers every method of a batch. The code violates it otherwise: a list method left out of a batch reply is asked again alone and then only its first page is returned (see C08); without batches (size 1) lists are cut to their first page and methods that must be asked for alone are left out. (`cam_requeried_list_refuted`, `cam_unbatched_refuted`)
* **C81** Single camera requests return exactly the section asked for. Refuted: of several sections only the first is sent and returned; an empty reply raises RuntimeError, a reply holding only the code KeyError, and an empty section is an error or a result depending on the key order of the reply. (`cam_sections_dropped_refuted`, `cam_empty_reply_refuted`)
* **C84** Camera siren commands are validated. Holds for every sound but the empty text, which is accepted although not offered: an empty configuration is sent. (`siren_empty_sound_refuted`)
* **C85** Stream URLs carry the right credentials unambiguously. Every URL given is right, and there is one whenever complete credentials are found by the stated order. Refuted: empty configured credentials hide a usable hash, and a hash that decodes to a non-object raises AttributeError. quote_plus is modelled on UTF-8 bytes; base64 and JSON decoding are an oracle. (`stream_url_hash_refuted`)
* **C87** Camera motors and battery report faithfully. Moves are as stated. Refuted: the charging state is computed from the voltage and always true. (`battery_charging_refuted`)
* **C89** After a successful update every feature is available. Holds when the first update that reaches the features succeeds; it does exactly when no module fails and no identifier is used twice. Refuted: if setting up the features fails half way, all later updates succeed and the rest never appears. Which identifiers a module defines is given, not modelled. (`features_complete_refuted`)
* **C90** Feature lookup tells what a module supports. Right while the features do not change; refuted: a question asked before the features exist is answered with nothing for ever. (`feature_lookup_refuted`)
* **C93** Auto-off, LED, lock and frost settings change only what was asked. All round trips hold. The frost minimum temperature is refuted: it is looked up in the device info, where a thermostat does not report it, so reading it raises KeyError. How a device reports child protection after set_child_protection is not assumed; only the command is stated. (`frost_minimum_refuted`)
* **C95** The time of the last water leak can be read. Holds for a device with its own clock. Refuted for a child of a hub: hub children never get the Time module, so reading the recorded time raises KeyError. The conversion to a datetime is not modelled. (`leak_time_refuted`)
* **C96** A SMART device's clock is read and set right. The time zone database is a parameter, assumed only to be consistent. Refuted for fixed offsets named like a database zone (the device then uses that zone's rules) and for offsets without a name (the device stays in its region); the instant is right in all cases. Fractional timestamps and offsets reported by the device are not modelled. (`clock_set_name_refuted`, `clock_set_unnamed_refuted`)
* **C97** A camera's clock is read and set right. Refuted: the local time sent is that of the computer running the program, so it is wrong unless both have the same offset. The device is assumed to merge what it is sent; the source notes that real ones may ignore the clock. (`cam_local_time_refuted`)
* **C98** A vacuum only gets requests inside a live login session. Order and outcomes are proved for all histories, given that the HTTP client raises only its own exceptions (C25). Refuted: an error code the library does not know, or a reply without one, makes the send fail with ValueError instead of a library exception. Login parameters are not modelled. (`ssl_errors_refuted`)
* **C100** Applying a light preset makes it the current one. What is sent, and that the preset (or the first one equal to it) is then reported, for every list a device may report. Refuted: choosing "Not set" sends full brightness, which selects the usual first preset; a SMART preset that stores a colour is never current on a light without colours; a legacy preset stored with brightness 0 turns the bulb off. No effect is active; for SMART lights the lists of lights without colours contain no colours. (`smart_unset_refuted`, `smart_colour_refuted`, `iot_unset_refuted`, `iot_preset_dark_refuted`)
* **C102** Disconnecting leaves no connection to a legacy device. Holds when no query is under way. disconnect() does not take the query lock: a query under way notices that its connection is gone, retries over a new one and leaves it open. (`disconnect_in_flight_refuted`)
* **C104** Names, networks and credentials cross unchanged. Holds for non-empty UTF-8 names. Refuted: the empty name is shown as no name; one network in range whose name is not UTF-8 makes the whole scan fail with UnicodeDecodeError; a legacy entry with an unknown field makes it fail with TypeError. (`smart_empty_name_refuted`, `smart_scan_refuted`, `iot_scan_refuted`)
* **C105** Joining a network is asked once and with everything needed. Refuted: on a device that has not been updated, or does not report its time, joining raises KeyError. (`smart_join_refuted`)
* **C106** Location, signal and hardware facts are the reported ones. Refuted: a SMART device without a location is shown at latitude 0, longitude 0. A SMART signal strength of 0 is shown as none. (`smart_location_refuted`)
* **C107** A KLAP device that knows the credentials is talked to as if directly. The device is a specification (KlapPeer_Spec): any application, any session policy that keeps sessions for the life time it grants. Assumed of the cryptographic library: digest and block sizes and that decryption inverts encryption; of a handshake: that the accepted credentials' proofs differ. Does not hold in one case: an old session whose 32-bit numbers are used up does not recover before it expires (klap_counter_exhausted_refuted). (`klap_counter_exhausted_refuted`)
* **C116** Queries to a child keep the promises of queries. The code does not do so: an error of the child that is retried for a device is raised at once (after one message), and only the first page of a list is returned. Failures of the hub itself are retried (C06, through which every child query goes). (`child_retry_refuted`, `child_pages_refuted`)
* **C117** A stored credentials hash is as good as the credentials. Proved for configurations with one source of credentials and, for cameras, with user name and password both given or both empty. The code loses a camera account with an empty password, and confuses blank credentials with a hash given beside them. Assumed: JSON reads what it writes; digests are not empty. (`cam_empty_password_refuted`, `blank_and_hash_refuted`)
* **C121** Lights read back as they were set. Against lights specified to take the fields of a request and keep the rest. A SMART light's brightness reads from the active effect, which set_state does not change; a dimmer switched on with a transition gets the brightness of the last update. A brightness given with a colour or temperature is not zero. (`effect_brightness_refuted`, `dimmer_stale_refuted`)
* **C122** A saved light state can be restored. Missing: SMART lights with an active effect, where the brightness read is the effect's (see effect_brightness_refuted). (`effect_brightness_refuted`)
* **C123** The command line tool uses the device its options name, or refuses. Does not hold in full: a failing first update leaves the device connected, a credentials hash is ignored when the device is discovered, port and timeout are ignored with --alias, --alias with --type connects to no host, `discover` drops half an account, and an unknown name is no error without a command. The callbacks of a broadcast discovery and the output are not modelled; of the discover command only its default, detail. (`failed_update_refuted`, `hash_unused_refuted`, `alias_ignores_port_refuted`, `alias_with_type_refuted`, `half_account_refuted`, `unknown_name_refuted`)
* **C125** A device is found by its name. Does not hold in full: a failing discovery makes the caller wait for ever, a device whose first update fails is not asked again, and one attempt fewer than asked for is made. Answers are handled one after another; names are compared in ASCII. (`failed_discovery_refuted`, `no_second_chance_refuted`, `one_attempt_short_refuted`)
* **C126** Editing a light preset changes exactly that preset. Holds for an index in range without --temperature, down to the index sent by legacy bulbs and SMART lights. Violations: --temperature always ends in AttributeError (LightState has no attribute temperature); a negative index is not refused and pairs the values of one preset with the name of another. (`preset_temperature_refuted`, `preset_negative_refuted`)
* **C127** Turn-on behaviour reads as reported and is written so that the bulb understands it. Reading is right, and each behaviour is written right, but TurnOnBehaviors is written as soft/hard where the bulb reports soft_on/hard_on, so no request carries a behaviour under the names it is reported under; that the bulb takes the names it reports is an assumption about the device. --preset 0 without --type is not refused. (`behavior_written_refuted`, `preset_zero_refuted`)
* **C128** Rules are listed in full and deleted by identity. Violations: one unreadable rule empties the list, and `schedule list` always ends in an error because the else of the for loop always runs. (`rules_hidden_refuted`, `schedule_list_refuted`)
* **C129** A command acts once, as asked, or refuses and does nothing. Violation: the temperature command returns the valid range instead of the present temperature. (`temperature_shown_refuted`)
* **C130** Energy and usage statistics are of the period meant. Holds while the clock does not pass a month between the two readings of the clock, or between update and reading. Violations: over New Year the days of a month eleven months ago are asked for; after a month's end today's consumption is that of the same day number of the month of the last update. (`daily_race_refuted`, `today_refuted`)
* **C131** Statistics of a strip are the sums over its sockets. Holds when the period is given. Violation: without a period each socket reads the clock anew, so the sums can mix two months. (`strip_straddle_refuted`)
* **C132** The energy command does what its options say. Violation: --year beside --month, and either beside --erase, is not refused; one of them is ignored. (`energy_both_refuted`)
* **C133** The time commands leave the device's clock right or refuse. Violations: without --timezone a device in a zone with another offset is set wrong by the difference, silently; for legacy devices the question is asked although there is an exact match. (`sync_elsewhere_refuted`, `exact_match_asked_refuted`)
* **C134** A discovery call ends cleanly. Proved for all interleavings: the end, the closed socket, the stable findings, that an exception has a cause, that callbacks started before the sending ended are waited for, that a cancellation is not swallowed while the target has not answered, and that devices are closed after a library error or cancellation if nothing disturbs the closing. False of the code, with witnesses: a callback started while others are waited for is left running; a cancellation at about the time the target answers is lost; devices stay open after other errors of a callback, after discover_single, or if another device answers during the closing; a lost socket shows as a cancellation. (`discovery_waits_for_callbacks_refuted`, `discovery_cancelled_refuted`, `discovery_closes_devices_refuted`, `discovery_single_closes_devices_refuted`, `discovery_lost_refuted`)
* **C135** Updating a hub brings its children up to date. Holds whenever both lists are answered. Refuted: an error reply to the question for the components makes update raise a TypeError, also for the next half minute in which the lists are not asked for again. Making a child is a parameter (SMART hubs and strips; the camera hub's choice of children is C29). (`family_components_refuted`)
* **C136** An update shows what setters changed, even when they overlap. Proved for every interleaving of updates and marked setters in which no query fails, and for modules without an interval in every history. The code violates the rest: when the common query of an update fails and methods are asked one by one, a setter in between is forgotten until the interval of its module has passed; an update called while the first is still waiting fails; and a hub's child shows its event log up to a day late. overlap_sequential ties the interleaved model to the sequential one of C27. (`overlap_fallback_refuted`, `overlap_first_refuted`, `hub_child_logs_refuted`)
* **C137** The tool's output and exit status tell what happened. Proved for every command that keeps to echo. The code violates the rest: with --json a failure prints nothing, so the reason is lost; the commands for logs, schedules and vacuums print plain text in front of the document or instead of it; and a run cancelled at a prompt ends with status 0. The text form of JSON and standard error are not modelled. (`json_failure_refuted`, `json_direct_refuted`, `abort_status_refuted`)
* **C138** After an update a legacy device object shows the device as it is, even when updates overlap. The full property holds of every module that has not answered with an error: first-come-first-served lock and round robin make an update that has read old answers return before any update begun after the change. It is stated for updates whose number of requests varies by at most one, which is proved of bulbs (one or two) and plugs (one). A module that once answered with an error is left out of all later updates, so the object shows it as it was for ever: refuted there. (`legacy_failed_module_refuted`)
* **C139** Before its first update an object shows what discovery told, or asks for an update. Holds of legacy objects that were only created, of those found by the short answer, and of the system information properties of those found by the full answer. The code violates the rest: a discovered strip is shown off and its switch commands send nothing, the time of a discovered device fails with a TypeError, the nested answer of a legacy camera is not looked into, and SMART objects and cameras show made-up values (off, the text None, the computer's clock, on) and cameras drop the switch command. (`discovered_strip_refuted`, `discovered_time_refuted`, `discovered_camera_refuted`, `smart_fresh_refuted`, `fresh_camera_refuted`)
* **C140** Requests go to the configured host and port. Holds of every history without a change of the host, for hosts that are names or IPv4 addresses. The code violates the rest: four transports build their URL once, so a new host is shown but never used; the two others use it only after a reset; and an IPv6 address is put into URLs without brackets, so no request reaches it. How yarl reads a URL is the reader in Where_Spec.v. (`set_host_refuted`, `set_host_stale_refuted`, `ipv6_host_refuted`)
* **C141** The text of a feature tells its value, and the listing shows every feature once. Holds of marked choices (with choices that have no star in them), numbers, unreadable values and the listing. The code violates two parts: a text that is not among the choices, as the name of a custom light effect, is neither shown nor reported, so any two such values look the same; and the text fails if the unit or the limits cannot be read (the listing catches that). How Python prints single values and rounds is a parameter. (`foreign_choice_refuted`)
* **C142** Settings made one after another all take effect. The code violates it: most setters send back the rest of their record as the last update showed it, so two settings in a row undo each other (auto-off stays off after being switched on when its delay is set next; the mop's level takes back the fan speed), and changes by others are taken back. Proved for every history in which no call sends back a record that changed since an update showed it, and for all settings that are sent alone in every history; whole_puts_back says exactly what the others do. The device keeps what it is sent field by field; refusals by the device are not modelled. (`auto_off_row_refuted`, `mop_row_refuted`, `other_rows_refuted`, `led_others_refuted`)
* **C143** What is said about new firmware is true of the device. The status follows the last check in every history, downloads are started exactly when an update is offered, and what is offered is true of the device as long as nothing is installed or released after a check the device answers truthfully. The code violates the rest: after an installation the kept answer is not dropped, so the device that runs the newest version is still offered an update and is told to download again; and an answer with a release date that cannot be read is thrown away as a whole. date.fromisoformat and int() of texts are parameters. (`firmware_installed_refuted`, `firmware_odd_date_refuted`)
* **C144** A module tells truly whether an attribute can be used. Holds of every marked attribute but one, in every history in which the question was not already asked before the features were made. The code violates the rest: the answer is cached, so a light asked after a first update that broke off says for ever that it has no colours; and the mark of the vacuum's set_fan_speed_preset is the class instead of an instance, so asking about it is an error although the feature is there. (`fan_speed_mark_refuted`, `asked_early_refuted`)
* **C145** Old names still mean what they were replaced by. Holds except: SMART lights have no save_preset under the old name although their module has one; the listed _deprecated_set_light_state stands for a name no light defines and is missing everywhere; hasattr raises for an old name whose module is there without the ability; a single legacy meter refuses kwh for get_daystat and get_monthstat, because its base class defines these names. (`old_save_preset_refuted`, `old_light_state_refuted`, `old_hasattr_refuted`, `old_statistics_refuted`)
* **C146** A device object over the network shows what the device says. Holds except that the code of an error is lost when a method is asked for alone: the object then has the general code -100001 instead of the device's. The parameters of a method are taken to be the same for all modules that ask for it; children are not part of this claim (C29, C58). (`error_code_kept_refuted`)
* **C149** On, off and toggle of the tool do what they say to the device or child named, and nothing else. Proved for devices that can be as wanted and, for dimmers with a transition, report a brightness from 1 to 100. Refuted: off for a camera without privacy mask succeeds and does nothing; --transition is ignored except by bulbs and dimmers; a dimmer reporting brightness 0 is turned off by on with a transition; a SMART device that does not report device_on (the strip P300) is always toggled on; toggling a strip with mixed sockets twice does not restore it. Children of SMART strips are SMART devices of their own here; how their messages are wrapped is C47 and C115. (`toggle_mixed_refuted`, `camera_off_refuted`, `transition_ignored_refuted`, `dimmer_zero_refuted`, `silent_toggle_refuted`)
* **C150** Commands of the modules of legacy devices reach their own service and nothing else. Holds for all modules but the cloud module: its connect, disconnect, set_server and get_available_firmwares only build and return the request, the right one, and send nothing. The device is specified in Service_Spec.takes. (`cloud_commands_refuted`)
* **C151** A setting takes what it advertises, shows what was set, and what it showed can be put back. Holds for whole numbers and names in every setting but the level of a SMART alarm, and for fractions where they make sense. Refuted: the fade and gentle times of a dimmer are shown as durations and the motion range as an enum member, which the same features refuse; the level of a SMART alarm is sent as a number instead of the name; a fractional siren volume makes the setting unreadable, a fractional motion threshold is cut, a fractional dimmer time fails with a TypeError. Lights have their own claims (C39-C43, C72, C76, C100, C121, C122). (`setting_restore_refuted`, `alarm_level_refuted`, `fraction_refuted`)
* **C152** Renaming, rebooting, resetting and raw commands reach just the object meant. Which child an option selects is C59. Empty names of SMART objects are shown as no name (C104). Violations proved: after renaming a child through the API and updating the child, the old name is shown (the child's information comes only with the parent's update; the tool updates the parent instead); a child of a camera hub can never be reset to factory settings, the library refuses the request itself. (`api_rename_child_refuted`, `reset_camera_child_refuted`)
* **C153** The discover commands tell what became of every device that answered. list, the blocks and the numbers hold in full (the numbers when nothing answers after the sending). The code violates the rest: detail is stopped by the first device whose update fails otherwise than by refusing the login, and devices that could be read are then not shown. Of identifiers, --redact hides the first nine characters and of addresses the last half. The padding of columns and the text of the parts of the state are not modelled. (`detail_stopped_refuted`)
* **C154** A camera object over the network shows what the camera says. The object's update composed with the camera protocol, the encrypted camera transport and a model of a camera. Refuted: that a failing update always fails with an error of the library (a component list answered with an error code gives a TypeError). (`cam_update_library_error_refuted`)
* **C155** What is written about a device for publication has nothing private in it. Everything written by the rules of the three tables is publishable, and so are all files, except for children of the same model as the device (the sockets of a strip): what they answer is written unredacted into the device's file (refuted with a strip). A text in which SCRUBBED occurs is taken as already scrubbed. (`same_model_child_refuted`)
* **C156** The files about a device have all it answered, and name its children consistently. Holds for questions with different names. Refuted: of the questions by get to a child camera only the last is kept; a hub whose list has dev_id gives KeyError; a listed child that answers nothing gives KeyError and no file at all; the fallback for legacy devices that answer one question at a time always fails. (`legacy_fallback_refuted`, `camera_child_answers_refuted`, `dev_id_children_refuted`, `silent_child_refuted`)
* **C157** A camera hub and its children show what the hub and the children say. The update of the hub and its children composed with the camera protocol, the wrapper for children, the encrypted transport and a model of a camera hub. The code violates the last sentence: when a newly listed child that is no camera answers its first question with an error, the error is logged and an unbound variable is used next, so the whole update fails with an UnboundLocalError and no child is shown (camhub_offline_child_refuted). (`camhub_offline_child_refuted`)
* **C158** The decoder of encrypted captures shows exactly the requests that were sent. Proved for captures in which every query of the client, those of handshakes too, has a number that is not negative. Refuted as it stands: the tool asks every request for its number, handshakes have none, so it ends with an exception at the first handshake of every capture and recovers nothing; a negative number, which half of all sessions start with, ends it as well. (`decoder_recovers_nothing_refuted`, `decoder_negative_refuted`)
* **C159** The decoder of legacy captures lists every message and counts them correctly. Proved for messages in one segment whose errors have a message. Refuted: datagrams are never shown (a packet is compared with a number); an error without err_msg ends the tool before its statistics. Messages that are split into segments are not covered. (`legacy_decoder_datagrams_refuted`, `legacy_decoder_stopped_refuted`)
* **C160** Every reading of a module is the field in which the device keeps it. Holds for all readings but two, which the code gets wrong: the night mode of the LED is looked up one level too high, so reading it always fails, and the minimum temperature of the frost protection is looked up in the device information because it is never asked for. Divisions by 1000 are exact, time spans are numbers of minutes. (`night_mode_shown_refuted`, `frost_minimum_shown_refuted`)
* **C161** Every reading of a camera's module is the field in which the camera keeps it. Holds for all readings except two, where the code is refuted: the signal of a camera that is a child of a hub is never shown although the camera reports it (hub_camera_signal_refuted), and whether the battery is charging is read from the voltage (camera_charging_refuted). A volume that is a fraction is excluded (int of a float is not modelled). (`hub_camera_signal_refuted`, `camera_charging_refuted`)
* **C162** Every reading of a legacy module is what the device last replied. The code violates the last sentence: a command the device refused (an error in place of the reply) makes the reading fail with KeyError (cloud: the error of the dataclass parser), and the code of the device is lost (legacy_refused_reading_refuted). All else is proved without hypotheses on the replies. int() of a text or a fraction is not modelled (counts as not reported). (`legacy_refused_reading_refuted`)
* **C163** Every feature a device offers has an id of its own and shows the field it is named for. Cameras hold in full. For SMART devices the code violates 'whatever combination': three pairs of components give one id twice (button_and_led with child_protection; battery_detect with clean and a reported percentage; temp_control with device_on), and the first update then fails with an error of the library (features_named_twice_refuted); for all other combinations the whole set is proved. Features whose value is a clock, a list of choices, an action or a light state are in the set, what they show is not stated here. (`features_named_twice_refuted`)
* **C164** The features of a legacy device are those its kind and its answers call for, and show what it replied. Proved: for a device that told what its kind tells, the features are exactly those called for, with distinct ids, and the readings, the relay, the signal and the quantities of the meter are what the device last replied. Refuted: a device that refuses its meter service is not offered without the meter; the hook of the meter runs although it is refused and the update fails with KeyError. The hooks of Time, Light and LightPreset are taken to succeed; values of on_since, light features and energy statistics are in other claims. (`legacy_unsupported_meter_refuted`)
* **C165** A device is called what it last said, and its text never raises. Proved for legacy devices and all histories, and for SMART devices before the first and after every successful update. Refuted: an update that a SMART device refuses or does not answer leaves an error code in the place of its information, and model and repr raise TypeError until an update succeeds, for ever if it was the first; a child that has not answered itself is of the model "None". The modules and children are taken to be made without an error, cameras are not in this claim. (`smart_called_after_failure_refuted`, `smart_called_first_refused_refuted`, `child_called_refuted`)
* **C166** A camera is called what it last said, and so is a camera on a hub. Holds after an update that succeeded, and before the first answer. Refuted: after a later update that failed, the model and the text of the object raise TypeError until the next success; a camera on a hub that has not been asked yet is called 'None' although the hub told its model. (`camera_called_after_failure_refuted`, `camera_on_hub_called_refuted`)
* **C167** A camera that refuses a login says why. Refuted in two cases: with no user name configured a blocked camera is reported as missing credentials, and an empty reply to the greeting ends in an UnboundLocalError instead of an exception of the library. Replies that ask for the less secure login are left to C17 and C63. (`camera_blocked_unnamed_refuted`, `camera_empty_reply_refuted`)
* **C168** When a device was switched on, and when it will switch itself off, are the right moments. The moments are right exactly when the zone's clocks are not changed in between and the moment does not lie in an hour shown twice (an equivalence); always for fixed offsets. Otherwise the code violates the property: adding to a date with a zone moves the wall clock, so the moment is off by the change, and a device that is on when clocks go forward reports a new moment. The time zone database is a parameter, assumed only to be consistent; fractions of seconds in the time on are not modelled. (`on_since_forward_refuted`, `summer_time_refuted`, `winter_time_refuted`)

## What is modelled and what is not

Modelled, function by function (citations in the models): the five transports
(`xor`, `klap`, `aes`, `ssl`, `sslaes`) and `linkie`; both protocols, the camera
protocol and the child wrappers; `httpclient`, `discover`, `deviceconfig`,
`device_factory`, `exceptions`, `credentials`, `feature`, `emeterstatus`,
`module` (lookup); `iotdevice`, `iotstrip`, `iotbulb`, `iotdimmer` and the
legacy modules; `smartdevice`, `smartchilddevice`, `smartmodule` and the SMART
modules; `smartcamdevice` and the camera modules.

Represented by an oracle (arbitrary function or value, quantified over):
AES block encryption, SHA-1/SHA-256/MD5, RSA, `json.loads`/`dumps` (round trip
assumed where stated), `asyncio` scheduling (all interleavings of the modelled
steps), sockets and `aiohttp` (outcome of each call), the clock, random bytes,
`zoneinfo`, string formatting of numbers.

Not modelled: logging, `__repr__`, deprecation warnings, type-only interface
classes, the rendering part of the command line client (`kasa/cli` except the
child lookup and the option logic cited in the models), floating point rounding (figures are
exact rationals), memory and process behaviour, TLS, actual wall-clock timing,
cryptographic strength.

## Trusted base

* The Coq 8.16.1 kernel, including `vm_compute` for closed computations.
* `Print Assumptions` under every claimed theorem answers "Closed under the
  global context": no axiom is used by any of them. `coqchk`/`vcheck` list seven
  axioms of the standard library that are merely loaded
  (`Coq.ssr.ssrunder.Under_rel.*`: `Under_rel`, `Under_relE`,
  `under_rel_done` and the like, from the `ssreflect` part of the standard
  library); no theorem depends on them.
* No axioms of our own, no `Admitted`, no functors or module types, no plugins.
* The reading of the Python source: each definition cites the lines it models.
* The oracles' hypotheses, as written in each theorem.

## Testing the theorems

`seeded/LOG.jsonl` records one line per seeded bug: a realistic edit of a model
definition in a scratch copy, the claim it breaks, the theorems that stopped
proving and the theorems that had to be tightened because they still proved.
Edits that leave every claim true (equivalent edits) carry a note.
