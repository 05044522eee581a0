{
 "claims": [
  {
   "property": "C01",
   "status": "proved",
   "theorems": [
    "C01_unescape_escape"
   ],
   "note": ""
  },
  {
   "property": "C02",
   "status": "proved",
   "theorems": [
    "C02_frame_shape",
    "C02_injective",
    "C02_onto"
   ],
   "note": ""
  },
  {
   "property": "C03",
   "status": "proved",
   "theorems": [
    "C03_recv_frame"
   ],
   "note": "For reads of at least one byte each; a Read returning 0 bytes without error would make the loop handle its last byte again (modelled)."
  },
  {
   "property": "C04",
   "status": "proved",
   "theorems": [
    "C04_lossless"
   ],
   "note": ""
  },
  {
   "property": "C05",
   "status": "proved",
   "theorems": [
    "C05_frame_complete",
    "C05_error_iff"
   ],
   "note": ""
  },
  {
   "property": "C06",
   "status": "partial",
   "theorems": [
    "C06_refuted",
    "C06_partial"
   ],
   "note": "False of the code: after a prefix with an odd number of delimiters no later packet is delivered (C06_refuted, for every packet sequence). C06_partial covers even numbers."
  },
  {
   "property": "C07",
   "status": "proved",
   "theorems": [
    "C07_send",
    "C07_progress"
   ],
   "note": ""
  },
  {
   "property": "C08",
   "status": "proved",
   "theorems": [
    "C08_accept_iff",
    "C08_generated",
    "C08_encoded_accepted",
    "C08_corruption"
   ],
   "note": ""
  },
  {
   "property": "C09",
   "status": "partial",
   "theorems": [
    "C09_refuted"
   ],
   "note": "False of the code: PacketData.VerifyCode is always the closing delimiter 0x7e (C09_refuted)."
  },
  {
   "property": "C10",
   "status": "proved",
   "theorems": [
    "C10_packet",
    "C10_message"
   ],
   "note": ""
  },
  {
   "property": "C11",
   "status": "proved",
   "theorems": [
    "C11_header"
   ],
   "note": ""
  },
  {
   "property": "C12",
   "status": "proved",
   "theorems": [
    "C12_attr"
   ],
   "note": ""
  },
  {
   "property": "C13",
   "status": "partial",
   "theorems": [
    "C13_refuted",
    "C13_partial"
   ],
   "note": "False from 1024 bytes on (C13_refuted: every such length); proved up to 1023 bytes (C13_partial)."
  },
  {
   "property": "C14",
   "status": "partial",
   "theorems": [
    "C14_refuted_empty",
    "C14_refuted",
    "C14_partial",
    "C14_refuted_exact"
   ],
   "note": "False for version 2019 devices: C14_refuted_exact gives the header and body such a device reads, for every phone and serial and every message with a body (the phone shifted by two digits, the serial number by a byte, the body without its first byte; C14_refuted says the same in other words for serials below 2560); with an empty body it panics (C14_refuted_empty). Proved for version 2013 (C14_partial)."
  },
  {
   "property": "C15",
   "status": "partial",
   "theorems": [
    "C15_refuted",
    "C15_partial",
    "C15_partial_within",
    "C15_partial_8103",
    "C15_partial_0104",
    "C15_partial_1205",
    "C15_accepted",
    "C15_accepted_wire"
   ],
   "note": "False: a 27-byte location report is accepted with the checksum as its last byte (C15_refuted). C15_partial: a decoder that does not run past the body depends on the body only; general replies and media queries never run past it; C15_partial_8103/_0104/_1205 say the same of the lists in those three messages. C15_accepted and C15_accepted_wire give, for every message type, version, body and buffer, exactly the bodies that are decoded."
  },
  {
   "property": "C16",
   "status": "partial",
   "theorems": [
    "C16_refuted",
    "C16_partial"
   ],
   "note": "False: exactly the frames with correct checksum and truncated header panic (C16_refuted); all others are decoded or rejected (C16_partial)."
  },
  {
   "property": "C17",
   "status": "partial",
   "theorems": [
    "C17_contained_partial",
    "C17_refuted"
   ],
   "note": "False when two connections have the same remote address (session id): the end of one unregisters the other (C17_refuted). C17_contained_partial: all other connections and all sessions with another id are untouched, whatever the inputs, panics included."
  },
  {
   "property": "C18",
   "status": "proved",
   "theorems": [
    "C18_hex",
    "C18_decode",
    "C18_roundtrip"
   ],
   "note": ""
  },
  {
   "property": "C19",
   "status": "proved",
   "theorems": [
    "C19_bcd",
    "C19_layout"
   ],
   "note": ""
  },
  {
   "property": "C20",
   "status": "partial",
   "theorems": [
    "C20_refuted",
    "C20_partial",
    "C20_number_partial"
   ],
   "note": "False for phone fields with a hexadecimal F nibble (C20_refuted); proved for decimal fields, also across versions (C20_partial). C20_number_partial: the phone of an accepted packet is exactly the number number_of gives for its field, so two fields are attributed to the same device exactly when they have the same number."
  },
  {
   "property": "C21",
   "status": "proved",
   "theorems": [
    "C21_roundtrip",
    "C21_read"
   ],
   "note": ""
  },
  {
   "property": "C22",
   "status": "proved",
   "theorems": [
    "C22_general_reply"
   ],
   "note": ""
  },
  {
   "property": "C23",
   "status": "partial",
   "theorems": [
    "C23_registration_2019",
    "C23_registration_2013",
    "C23_refuted"
   ],
   "note": "Proved for version 2019 and for version 2013 with a non-empty plate. C23_refuted: with an empty plate a version 2013 registration is decoded with a part of the model as terminal id."
  },
  {
   "property": "C24",
   "status": "proved",
   "theorems": [
    "C24_auth_2019",
    "C24_auth_2013"
   ],
   "note": ""
  },
  {
   "property": "C25",
   "status": "proved",
   "theorems": [
    "C25_reg_reply"
   ],
   "note": ""
  },
  {
   "property": "C26",
   "status": "proved",
   "theorems": [
    "C26_location",
    "C26_extra_items"
   ],
   "note": ""
  },
  {
   "property": "C27",
   "status": "proved",
   "theorems": [
    "C27_media"
   ],
   "note": ""
  },
  {
   "property": "C28",
   "status": "proved",
   "theorems": [
    "C28_time"
   ],
   "note": ""
  },
  {
   "property": "C29",
   "status": "proved",
   "theorems": [
    "C29_params",
    "C29_messages"
   ],
   "note": ""
  },
  {
   "property": "C30",
   "status": "partial",
   "theorems": [
    "C30_refuted",
    "C30_partial"
   ],
   "note": "False: an unknown id makes the decoder panic (C30_refuted); the encoder skips it (C30_partial)."
  },
  {
   "property": "C31",
   "status": "partial",
   "theorems": [
    "C31_refuted",
    "C31_partial"
   ],
   "note": "False for the plate of a registration, whose body becomes empty without error (C31_refuted); a parameter text only loses its own value (C31_partial)."
  },
  {
   "property": "C32",
   "status": "proved",
   "theorems": [
    "C32_status"
   ],
   "note": ""
  },
  {
   "property": "C33",
   "status": "partial",
   "theorems": [
    "C33_refuted",
    "C33_partial"
   ],
   "note": "False: bits 2 and 3 are exchanged (C33_refuted, exact for every word); holds when they agree (C33_partial)."
  },
  {
   "property": "C34",
   "status": "proved",
   "theorems": [
    "C34_location",
    "C34_speed",
    "C34_injective"
   ],
   "note": "Flocq binary64; assumptions are the standard library's classical reals (listed in DESIGN.md)."
  },
  {
   "property": "C35",
   "status": "proved",
   "theorems": [
    "C35_update"
   ],
   "note": ""
  },
  {
   "property": "C36",
   "status": "partial",
   "theorems": [
    "C36_set_query_partial",
    "C36_sets_query_partial",
    "C36_refuted"
   ],
   "note": "False for a parameter that the stored table does not have: it is acknowledged and dropped (C36_refuted). The partial theorems give the exact answer of a query after any series of sets."
  },
  {
   "property": "C37",
   "status": "partial",
   "theorems": [
    "C37_latest_partial",
    "C37_refuted"
   ],
   "note": "False whenever the number of writes is a positive multiple of the size: Latest is nil (C37_refuted, every size and contents). C37_latest_partial gives the exact result of Latest in every reachable state."
  },
  {
   "property": "C38",
   "status": "proved",
   "theorems": [
    "C38_window"
   ],
   "note": ""
  },
  {
   "property": "C39",
   "status": "partial",
   "theorems": [
    "C39_bounds_partial",
    "C39_latest_partial",
    "C39_refuted"
   ],
   "note": "False for Latest: it checks Writer and loads it again, a concurrent Write wrapping to 0 in between makes it index Container[-1] (C39_refuted, every size >= 2). C39_bounds_partial: any number of goroutines calling Write, Read, Oldest and Overwrite never go out of bounds. C39_latest_partial: nor does Latest, in any execution in which Writer does not come back to 0."
  },
  {
   "property": "C40",
   "status": "partial",
   "theorems": [
    "C40_refuted"
   ],
   "note": "False in every state: Overwrite never changes what Latest returns, it replaces what Oldest returns (C40_refuted)."
  },
  {
   "property": "C41",
   "status": "proved",
   "theorems": [
    "C41_indexes_agree",
    "C41_invariant"
   ],
   "note": ""
  },
  {
   "property": "C42",
   "status": "proved",
   "theorems": [
    "C42_registration"
   ],
   "note": ""
  },
  {
   "property": "C43",
   "status": "partial",
   "theorems": [
    "C43_refuted",
    "C43_one_at_a_time_partial",
    "C43_held_partial"
   ],
   "note": "False: from every consistent state there is a schedule in which both are accepted (C43_refuted). C43_one_at_a_time_partial: handled one after the other the second is refused. C43_held_partial: while a device heard less than a keepalive interval ago has the plate, a registration of it is refused under every schedule of goroutines that do not endanger that device."
  },
  {
   "property": "C44",
   "status": "proved",
   "theorems": [
    "C44_authentication"
   ],
   "note": ""
  },
  {
   "property": "C45",
   "status": "proved",
   "theorems": [
    "C45_handshake_2019",
    "C45_handshake_2013"
   ],
   "note": ""
  },
  {
   "property": "C46",
   "status": "partial",
   "theorems": [
    "C46_codes_partial",
    "C46_refuted",
    "C46_refuted_separator",
    "C46_both_registered_partial"
   ],
   "note": "False: two devices with the same code exist (C46_refuted: FNV-1a collision; C46_refuted_separator: ids and plates with '_') and both can be registered. C46_codes_partial: the codes are equal exactly when the hashes are."
  },
  {
   "property": "C47",
   "status": "partial",
   "theorems": [
    "C47_status_change_partial",
    "C47_refuted"
   ],
   "note": "False: a successful general reply 0x8001 sent by the device, and a location with ACC off, also take it out of Offline without authentication (C47_refuted). C47_status_change_partial: nothing else does."
  },
  {
   "property": "C48",
   "status": "proved",
   "theorems": [
    "C48_heartbeat",
    "C48_unknown"
   ],
   "note": ""
  },
  {
   "property": "C49",
   "status": "proved",
   "theorems": [
    "C49_logout",
    "C49_register_again"
   ],
   "note": ""
  },
  {
   "property": "C50",
   "status": "proved",
   "theorems": [
    "C50_location"
   ],
   "note": ""
  },
  {
   "property": "C51",
   "status": "proved",
   "theorems": [
    "C51_reply",
    "C51_fragment_reply"
   ],
   "note": ""
  },
  {
   "property": "C52",
   "status": "proved",
   "theorems": [
    "C52_one_reply",
    "C52_replies"
   ],
   "note": ""
  },
  {
   "property": "C53",
   "status": "proved",
   "theorems": [
    "C53_ignored"
   ],
   "note": ""
  },
  {
   "property": "C54",
   "status": "proved",
   "theorems": [
    "C54_isolation"
   ],
   "note": ""
  },
  {
   "property": "C55",
   "status": "proved",
   "theorems": [
    "C55_fresh_kept",
    "C55_fresh_nothing"
   ],
   "note": ""
  },
  {
   "property": "C56",
   "status": "proved",
   "theorems": [
    "C56_history",
    "C56_eventually",
    "C56_silent"
   ],
   "note": ""
  },
  {
   "property": "C57",
   "status": "proved",
   "theorems": [
    "C57_jobs"
   ],
   "note": ""
  },
  {
   "property": "C58",
   "status": "partial",
   "theorems": [
    "C58_refuted",
    "C58_history_partial",
    "C58_schedule_partial"
   ],
   "note": "False under concurrency: a heartbeat in flight stores the device again after the logout (C58_refuted, from every consistent state). C58_history_partial: when messages are handled one at a time, only a registration makes a phone known. C58_schedule_partial: under every schedule, a phone that is not registered stays so whatever it sends except registrations (no other goroutine is in flight for it at the start)."
  },
  {
   "property": "C59",
   "status": "partial",
   "theorems": [
    "C59_refuted_schedule",
    "C59_held_partial",
    "C59_refuted",
    "C59_alive_partial"
   ],
   "note": "False: such a check panics in a goroutine nobody recovers (C59_refuted, every state); C59_refuted_schedule: reachable from every consistent state. C59_alive_partial: when things happen one at a time this never comes up. C59_held_partial: under every schedule the checks of a device heard less than a keepalive interval ago come to their end."
  },
  {
   "property": "C60",
   "status": "partial",
   "theorems": [
    "C60_refuted",
    "C60_refuted_last",
    "C60_cache_partial",
    "C60_refuted_mixed"
   ],
   "note": "False: the first fragment of a message panics in the cache and closes the connection (C60_refuted); the last one is processed with its own body, not the merged one (C60_refuted_last); ids in the surrogate range share one cache entry (C60_refuted_mixed). C60_cache_partial: otherwise the cache itself concatenates each message's own fragments in order of arrival, under any interleaving of messages."
  },
  {
   "property": "C61",
   "status": "partial",
   "theorems": [
    "C61_registry_partial",
    "C61_looked_up_partial",
    "C61_accepted_partial",
    "C61_gone_partial",
    "C61_refuted"
   ],
   "note": "False when a remote address is accepted again while the earlier connection is still served (C61_refuted). The partial theorems cover histories in which addresses in use are distinct, and the effects of accept and close in any history."
  },
  {
   "property": "C62",
   "status": "proved",
   "theorems": [
    "C62_serials"
   ],
   "note": ""
  },
  {
   "property": "C63",
   "status": "partial",
   "theorems": [
    "C63_distinct_partial",
    "C63_refuted",
    "C63_wrap_partial",
    "C63_refuted_each"
   ],
   "note": "False around the wrap: two concurrent callers can both get 0 (C63_refuted). C63_distinct_partial: distinct as long as the counter does not pass 65535. C63_wrap_partial: when k numbers are taken past it, only numbers below k can be given twice, under every schedule; C63_refuted_each: each of them from 1 on is, in some schedule."
  },
  {
   "property": "C64",
   "status": "partial",
   "theorems": [
    "C64_refuted",
    "C64_get_params_partial",
    "C64_history_partial"
   ],
   "note": "False: no command reaches the new connection unless it has the address the device registered from (C64_refuted, every state). C64_get_params_partial: it goes to the session registered under that address. C64_history_partial: in every history, while the connection a device registered on is open, commands are written to it."
  },
  {
   "property": "C65",
   "status": "partial",
   "theorems": [
    "C65_unknown_partial",
    "C65_get_partial",
    "C65_put_partial",
    "C65_refuted",
    "C65_refuted_session"
   ],
   "note": "Refused and sent as stated when the session is registered and the parameters can be encoded; otherwise the request panics (C65_refuted: value of another type than the id's; C65_refuted_session: session gone), after which gin sends what C124 says. C64_history_partial says when the session is registered."
  },
  {
   "property": "C66",
   "status": "partial",
   "theorems": [
    "C66_refuted"
   ],
   "note": "False: there is no table entry for 0x0004; the query is dropped (C66_refuted, every state and query)."
  },
  {
   "property": "C67",
   "status": "proved",
   "theorems": [
    "C67_server",
    "C67_client"
   ],
   "note": "A panic in a handler also ends the connection (server) or the loop (client)."
  },
  {
   "property": "C68",
   "status": "proved",
   "theorems": [
    "C68_decodable",
    "C68_short"
   ],
   "note": ""
  },
  {
   "property": "C69",
   "status": "partial",
   "theorems": [
    "C69_refuted",
    "C69_cleared_partial"
   ],
   "note": "False: logout keeps the location buffer and the next registration of the phone reports it (C69_refuted, every state). C69_cleared_partial: the keepalive check that clears a device removes it."
  },
  {
   "property": "C70",
   "status": "partial",
   "theorems": [
    "C70_levels_partial",
    "C70_others_partial",
    "C70_refuted"
   ],
   "note": "False for FATAL, which the code spells 'FATAl': it selects debug (C70_refuted). All other names as stated; every other string selects debug."
  },
  {
   "property": "C71",
   "status": "partial",
   "theorems": [
    "C71_refuted",
    "C71_refuted_count",
    "C71_guarded_partial",
    "C71_refuted_records",
    "C71_records_partial",
    "C71_requests_partial",
    "C71_lookups_partial",
    "C71_refuted_requests"
   ],
   "note": "False: ListDevice reads the map without the mutex (C71_refuted, from every state), and so does countSession against a new connection (C71_refuted_count); C71_refuted_records: device records are written and read without any. C71_guarded_partial: without these two readers, no schedule has a race on anything a mutex protects. C71_records_partial: two goroutines that act for different phones (a connection acts for the phones of the frames it receives) have no race on device records or location buffers, in any schedule from a state in which index entries lead to objects with that key and buffers are not shared, which all histories give (C94_histories). Missing: goroutines of the same phone, for which it is false. C71_requests_partial: HTTP requests of all four kinds race with each other on nothing but serial numbers, in any state and schedule, and on those two queries do race when the counter is at its end (C71_refuted_requests); C71_lookups_partial: list and location requests and the session counter do not race with each other at all. C139 shows that the accounts of the steps, which races are defined by, say all that the steps touch."
  },
  {
   "property": "C72",
   "status": "proved",
   "theorems": [
    "C72_all_schedules",
    "C72_histories"
   ],
   "note": "Goroutines excluded from the no-panic part: keepalive checks (C59), parameter commands (C65), fragments (C60) and messages whose decoding panics."
  },
  {
   "property": "C73",
   "status": "proved",
   "theorems": [
    "C73_layout"
   ],
   "note": ""
  },
  {
   "property": "C74",
   "status": "proved",
   "theorems": [
    "C74_data",
    "C74_answer"
   ],
   "note": ""
  },
  {
   "property": "C75",
   "status": "proved",
   "theorems": [
    "C75_list"
   ],
   "note": ""
  },
  {
   "property": "C76",
   "status": "partial",
   "theorems": [
    "C76_geo_partial",
    "C76_refuted"
   ],
   "note": "False whenever the number of reports is a positive multiple of 100: the answer is empty (C76_refuted). C76_geo_partial: the exact answer after every history."
  },
  {
   "property": "C77",
   "status": "proved",
   "theorems": [
    "C77_identity"
   ],
   "note": ""
  },
  {
   "property": "C78",
   "status": "partial",
   "theorems": [
    "C78_refreshed_partial",
    "C78_refuted"
   ],
   "note": "False: a location report with ACC on refreshes nothing, and the next check due turns the reporting device offline (C78_refuted). C78_refreshed_partial: exactly which messages refresh the time."
  },
  {
   "property": "C79",
   "status": "partial",
   "theorems": [
    "C79_partial",
    "C79_refuted"
   ],
   "note": "False: the check that turns a device offline leaves every connection as it is (C79_refuted, every state). A check closes a connection exactly when it removes the device (C79_partial, every state)."
  },
  {
   "property": "C80",
   "status": "partial",
   "theorems": [
    "C80_partial",
    "C80_refuted"
   ],
   "note": "False: the next check removes the device and its locations, however soon it comes (C80_refuted). A check removes only a device it finds offline and silent for longer than one interval; otherwise record, locations and job stay (C80_partial). How long it stays if the checks come once per interval: C126."
  },
  {
   "property": "C81",
   "status": "partial",
   "theorems": [
    "C81_refuted",
    "C81_refuted_any"
   ],
   "note": "False: any connection can log out any device (C81_refuted); apart from registrations the connection plays no role at all (C81_refuted_any)."
  },
  {
   "property": "C82",
   "status": "partial",
   "theorems": [
    "C82_partial",
    "C82_refuted"
   ],
   "note": "False: the connection of the cleared device is closed although another device is on it (C82_refuted). Its record is untouched (C54, C56). Under every schedule a connection stays open while no goroutine serves it, no check is of a device registered over it and no Send reports it closed (C82_partial)."
  },
  {
   "property": "C83",
   "status": "proved",
   "theorems": [
    "C83_records"
   ],
   "note": ""
  },
  {
   "property": "C84",
   "status": "partial",
   "theorems": [
    "C84_schedule_partial",
    "C84_partial",
    "C84_refuted"
   ],
   "note": "False: registration suffices (C84_refuted, every history). Nothing is stored for a phone that is not registered (C84_partial, every history). C84_schedule_partial: the same under every schedule, registrations of the phone excluded."
  },
  {
   "property": "C85",
   "status": "partial",
   "theorems": [
    "C85_refuted",
    "C85_partial"
   ],
   "note": "False: heartbeats and location reports with ACC on leave the status as it is (C85_refuted); a device becomes online only by a successful authentication or, when offline, by a 0x8001 success (C85_partial)."
  },
  {
   "property": "C86",
   "status": "proved",
   "theorems": [
    "C86_stays",
    "C86_removed"
   ],
   "note": ""
  },
  {
   "property": "C87",
   "status": "partial",
   "theorems": [
    "C87_headers_partial",
    "C87_refuted"
   ],
   "note": "Proved for the versions 2019, 2013 and 2011 and phones that fit. False for other version strings: an unpadded phone of 11 digits is sent in 5 bytes and read as another phone (C87_refuted)."
  },
  {
   "property": "C88",
   "status": "proved",
   "theorems": [
    "C88_reports"
   ],
   "note": ""
  },
  {
   "property": "C89",
   "status": "partial",
   "theorems": [
    "C89_near_partial",
    "C89_refuted"
   ],
   "note": "Proved for positions away from the ends of the ranges (latitude and longitude at least 1 degree, altitude 5..4995, speed 10..290). False near zero: where conversions of negative numbers wrap around the report is at 90 degrees, 180 degrees, 1000 m, 100 km/h (C89_refuted)."
  },
  {
   "property": "C90",
   "status": "proved",
   "theorems": [
    "C90_online_2019",
    "C90_online_2013"
   ],
   "note": ""
  },
  {
   "property": "C91",
   "status": "partial",
   "theorems": [
    "C91_refuted"
   ],
   "note": "False: the serial number is the constant 1 (C91_refuted)."
  },
  {
   "property": "C92",
   "status": "partial",
   "theorems": [
    "C92_refuted_2019",
    "C92_refuted_2013",
    "C92_refusal_partial"
   ],
   "note": "False: the client ignores the result of 0x8100 and authenticates with the text of the refusal, and the server removes the registered device (C92_refuted_2019, C92_refuted_2013). The refusal itself changes nothing (C92_refusal_partial)."
  },
  {
   "property": "C93",
   "status": "proved",
   "theorems": [
    "C93_heartbeat",
    "C93_report",
    "C93_heartbeats"
   ],
   "note": ""
  },
  {
   "property": "C94",
   "status": "proved",
   "theorems": [
    "C94_isolation",
    "C94_buffers",
    "C94_histories"
   ],
   "note": ""
  },
  {
   "property": "C95",
   "status": "proved",
   "theorems": [
    "C95_messages",
    "C95_checks",
    "C95_locations",
    "C95_registrations",
    "C95_spare"
   ],
   "note": ""
  },
  {
   "property": "C96",
   "status": "proved",
   "theorems": [
    "C96_atomic_sections",
    "C96_between_sections"
   ],
   "note": "For every goroutine except the two that read a map without its mutex (ListDevice, countSession; see C71)."
  },
  {
   "property": "C97",
   "status": "proved",
   "theorems": [
    "C97_no_deadlock"
   ],
   "note": ""
  },
  {
   "property": "C98",
   "status": "partial",
   "theorems": [
    "C98_answer_partial",
    "C98_refuted"
   ],
   "note": "Proved for queries with valid times. False for a query without time range (zeros): it is answered with the current time of the answering side (C98_refuted)."
  },
  {
   "property": "C99",
   "status": "partial",
   "theorems": [
    "C99_defaults_partial",
    "C99_refuted"
   ],
   "note": "Proved for 38 of the 39 entries. False for 0x76: it announces 35 bytes where 15 are left, and 20 characters of the hexadecimal program text become part of the value (C99_refuted)."
  },
  {
   "property": "C100",
   "status": "proved",
   "theorems": [
    "C100_send",
    "C100_nobody",
    "C100_unencodable"
   ],
   "note": ""
  },
  {
   "property": "C101",
   "status": "partial",
   "theorems": [
    "C101_partial",
    "C101_refuted"
   ],
   "note": "False: the code is a function of id, plate and phone, so the old code is given again (C101_refuted). C101_partial: an old code is accepted exactly if its 32-bit hash is that of the present registration, and while the phone is not registered it is not accepted."
  },
  {
   "property": "C102",
   "status": "partial",
   "theorems": [
    "C102_refuted",
    "C102_partial"
   ],
   "note": "False: a check that has read the offline status before the authentication removes the device and closes its connection after it (C102_refuted). Checks and other goroutines that begin after the authentication, within the keepalive interval, do not remove it under any schedule (C102_partial)."
  },
  {
   "property": "C103",
   "status": "proved",
   "theorems": [
    "C103_accept_loop"
   ],
   "note": ""
  },
  {
   "property": "C104",
   "status": "partial",
   "theorems": [
    "C104_lines_partial",
    "C104_refuted"
   ],
   "note": "Proved when the log directory can be created. Otherwise the file writer is nil and the first line at the level panics, already in Configure at level Info or below (C104_refuted)."
  },
  {
   "property": "C105",
   "status": "partial",
   "theorems": [
    "C105_caller_partial",
    "C105_refuted"
   ],
   "note": "Proved except for a file directly under the root, which keeps its slash (C105_refuted)."
  },
  {
   "property": "C106",
   "status": "partial",
   "theorems": [
    "C106_first_partial",
    "C106_refuted"
   ],
   "note": "Proved for the first call. Later calls ignore their path, and after a first call that panicked they return the empty configuration without any error (C106_refuted)."
  },
  {
   "property": "C107",
   "status": "proved",
   "theorems": [
    "C107_fleet"
   ],
   "note": "For configurations whose strings fit the fields of their protocol version, frames read one at a time by each process, and successful writes."
  },
  {
   "property": "C108",
   "status": "proved",
   "theorems": [
    "C108_live"
   ],
   "note": "Under the assumptions of C107."
  },
  {
   "property": "C109",
   "status": "proved",
   "theorems": [
    "C109_fair"
   ],
   "note": "Under the assumptions of C107."
  },
  {
   "property": "C110",
   "status": "proved",
   "theorems": [
    "C110_groups",
    "C110_parted",
    "C110_one",
    "C110_schedules",
    "C110_connection",
    "C110_in_turn"
   ],
   "note": "C110_groups compares with the run of the group's goroutines in the same order (time passes for both); C110_one, C110_schedules, C110_connection and C110_in_turn are for a goroutine whose group contains nothing else, while no time passes. Shared phones, plates, addresses or connections are where interference is possible (C43, C58, C59)."
  },
  {
   "property": "C111",
   "status": "proved",
   "theorems": [
    "C111_entrants"
   ],
   "note": "No time passes while the terminals enter (frames handled later are the business of C42 and C44); every write succeeds."
  },
  {
   "property": "C112",
   "status": "partial",
   "theorems": [
    "C112_refuted_lost",
    "C112_refuted_first",
    "C112_refuted_count",
    "C112_refuted_races",
    "C112_races_partial",
    "C112_set_alone_partial",
    "C112_query_alone_partial",
    "C112_provenance_partial",
    "C112_counts_partial"
   ],
   "note": "False: the cached object is changed in place without a lock. Of two settings at the same time one can be lost (C112_refuted_lost, C112_refuted_first), a query during a setting can announce more parameters than it lists when the stored list has one twice (C112_refuted_count), and both fields race (C112_refuted_races). Proved instead: one message at a time the objects behave like the values of the other files (C112_set_alone_partial, C112_query_alone_partial); under every schedule no handler fails and answers contain only parameters stored or set for that phone (C112_provenance_partial); without repeated parameters the counts are right (C112_counts_partial)."
  },
  {
   "property": "C113",
   "status": "proved",
   "theorems": [
    "C113_log",
    "C113_whole",
    "C113_read"
   ],
   "note": "C113_log: the writes under every schedule; C113_whole and C113_read: whole frames and what the other side reads, when no write fails (C113_cut_ex shows what a write that fails half way does). One Send of a frame is one atomic write on the connection: net.Conn serialises writers and writes everything or fails."
  },
  {
   "property": "C114",
   "status": "partial",
   "theorems": [
    "C114_refuted",
    "C114_refuted_history",
    "C114_bounded_partial"
   ],
   "note": "False: stored parameters and the segments of an incomplete transfer are never removed, by no event and under no schedule (C114_refuted, C114_refuted_history; DelDeviceParamsByPhone is never called). C114_bounded_partial: after every history there are as many plate entries and keepalive jobs as devices, at most as many session ids as connections being served, and 100 location slots for a phone; together with C56_history and C50 devices themselves are released."
  },
  {
   "property": "C115",
   "status": "partial",
   "theorems": [
    "C115_length",
    "C115_fits_partial",
    "C115_refuted",
    "C115_refuted_received"
   ],
   "note": "False for fragments of version 2019 headers, whose escaped header may need 8 bytes more (C115_refuted), and for received frames, which Recv collects without limit (C115_refuted_received). C115_length is the exact length of an encoded frame; C115_fits_partial: frames of unfragmented messages fit, for ids without 0x7e and 0x7d bytes (all ids of the protocol)."
  },
  {
   "property": "C116",
   "status": "partial",
   "theorems": [
    "C116_refuted",
    "C116_partial"
   ],
   "note": "False: the announced length is never compared with the body (C116_refuted holds for any header, whatever length it announces). C116_partial: what the program sends announces its length."
  },
  {
   "property": "C117",
   "status": "proved",
   "theorems": [
    "C117_split",
    "C117_frames",
    "C117_unique",
    "C117_packets"
   ],
   "note": ""
  },
  {
   "property": "C118",
   "status": "proved",
   "theorems": [
    "C118_survives"
   ],
   "note": ""
  },
  {
   "property": "C119",
   "status": "partial",
   "theorems": [
    "C119_refuted",
    "C119_exit_partial",
    "C119_done_partial",
    "C119_status_partial",
    "C119_negative_partial"
   ],
   "note": "False: seven failed calls of Dial in a row for one terminal end the whole process with status 1, whatever the other terminals do (C119_refuted). That is the only way to end with an error (C119_exit_partial); otherwise the process ends, with status 0, exactly when every terminal has connected and stopped (C119_done_partial, C119_status_partial)."
  },
  {
   "property": "C120",
   "status": "proved",
   "theorems": [
    "C120_no_endless",
    "C120_rest_iff"
   ],
   "note": ""
  },
  {
   "property": "C121",
   "status": "proved",
   "theorems": [
    "C121_up_iff",
    "C121_up_state",
    "C121_over"
   ],
   "note": ""
  },
  {
   "property": "C122",
   "status": "partial",
   "theorems": [
    "C122_up_iff_partial",
    "C122_over",
    "C122_refuted"
   ],
   "note": "False: a panicking keepalive check (C59) and an HTTP port that cannot be bound end the process (statuses 2 and 1), although TCP connections are being served; when the log directory cannot be made and the level is WARN or ERROR, the process starts and its first logged error or recovered panic ends it, because Recover itself logs (C122_refuted). C122_up_iff_partial: these are exactly the events that end it; C122_over gives the status."
  },
  {
   "property": "C123",
   "status": "proved",
   "theorems": [
    "C123_found",
    "C123_dir",
    "C123_nodir",
    "C123_file_nodir",
    "C123_names"
   ],
   "note": ""
  },
  {
   "property": "C124",
   "status": "partial",
   "theorems": [
    "C124_answers_partial",
    "C124_one_value_partial",
    "C124_refuted"
   ],
   "note": "False: a setting whose body could not be bound is answered with 400 and sent all the same, commands that are sent are answered without a value, and a setting that is wrong in two ways gets two values (C124_refuted). C124_answers_partial: the exact answer to every request; C124_one_value_partial: exactly which requests get one value. What gin sends for several calls of c.JSON and for a panic is an assumption (DESIGN.md)."
  },
  {
   "property": "C125",
   "status": "partial",
   "theorems": [
    "C125_refuted",
    "C125_refuted_shown"
   ],
   "note": "False: id, plate and phone, which the list shows, determine the code, and it is accepted on any connection (C125_refuted); of an authenticated device the list shows the code itself (C125_refuted_shown)."
  },
  {
   "property": "C126",
   "status": "proved",
   "theorems": [
    "C126_timed",
    "C126_minute"
   ],
   "note": "C126_minute; C126_timed for checks that come between lo and hi apart. That gron fires the job once per interval is the hypothesis `spaced`. The example shows that the bounds are reached."
  },
  {
   "property": "C127",
   "status": "partial",
   "theorems": [
    "C127_refuted",
    "C127_stop_partial"
   ],
   "note": "False: the connection is open however the reading has ended and the other goroutines of the terminal go on sending (C127_refuted). C127_stop_partial: Stop, which nothing calls in these cases, does what is claimed."
  },
  {
   "property": "C128",
   "status": "partial",
   "theorems": [
    "C128_accepts_partial",
    "C128_refuted"
   ],
   "note": "No connection is accepted any more (C128_accepts_partial). The connections stay and are served as if Stop had not been called, and the loop goes on and logs an error in every round (C128_refuted). Nothing in the repository calls Stop."
  },
  {
   "property": "C129",
   "status": "partial",
   "theorems": [
    "C129_refuted",
    "C129_partial",
    "C129_8103_partial",
    "C129_0104_partial"
   ],
   "note": "False, e.g. for every location report with additional items (C129_refuted). C129_partial, C129_8103_partial, C129_0104_partial: the frame comes out again exactly when its body is canonical (nothing behind the fields, times that are times, BCD without half bytes of 15, texts that GBK gives back, no short 2013 registration, length bytes that are those of the values). They assume of the GBK library that twelve zero bytes survive (registrations) and that a text of under 256 bytes is not read and written to one of 256 or more (parameters)."
  },
  {
   "property": "C130",
   "status": "partial",
   "theorems": [
    "C130_refuted",
    "C130_partial"
   ],
   "note": "False: messages with ids the server does not know (such as 0x0704, which many terminals send) are answered with an error and a pause of one second each (tcp_server.go:106), so heartbeats behind a backlog of them are handled too late and the device is removed although its heartbeats arrive every second (C130_refuted, for every continuation; C130_ex). C130_partial: if the pauses never let a message wait longer than K and for every check a heartbeat arrived in the minute before it and more than K before it, the device stays online. Handling a message is taken to need no time."
  },
  {
   "property": "C131",
   "status": "proved",
   "theorems": [
    "C131_same",
    "C131_history",
    "C131_pause",
    "C131_order",
    "C131_rate",
    "C131_prompt"
   ],
   "note": ""
  },
  {
   "property": "C132",
   "status": "proved",
   "theorems": [
    "C132_punctual",
    "C132_online",
    "C132_sharp"
   ],
   "note": "Time is the server's clock; on_time (SpecOnTime.v) says what is read, looked at and sent in time. With the simulator's defaults (a look every second, a heartbeat every 20 s) frames may take 19.5 s. C132_sharp: the bound is exact, for D up to S and P."
  },
  {
   "property": "C133",
   "status": "proved",
   "theorems": [
    "C133_soon",
    "C133_reports"
   ],
   "note": ""
  },
  {
   "property": "C134",
   "status": "proved",
   "theorems": [
    "C134_frames",
    "C134_fleet",
    "C134_fair"
   ],
   "note": "C134_frames needs nothing of the fleet but that nothing was written or read before. Writes succeed and a connection that is closed delivers no end of stream (it never happens in the runs of C134_fleet and C134_fair)."
  },
  {
   "property": "C135",
   "status": "partial",
   "theorems": [
    "C135_refuted",
    "C135_run_partial",
    "C135_live_partial",
    "C135_restart_partial",
    "C135_first_partial"
   ],
   "note": "False: C135_refuted. The server keeps the device of an ended connection, so a terminal that was online when the simulator ended is refused (result 1 or 3), authenticates with the code field of the refusal, and the failed authentication removes the device: it never gets past its status check in that process, and the next restart works. With the number and plate of test/client/configs/default.yaml every second run of the simulator fails like this. Only two keepalive checks after the device's time is up, before the simulator is started again, avoid it. C135_run_partial and C135_live_partial say what happens to each terminal in every run, C135_restart_partial that they apply again after every restart. All ended connections are closed before the new ones are accepted; keepalive checks of a device that is already late, while the new process runs, are excluded (all_punctual)."
  },
  {
   "property": "C136",
   "status": "partial",
   "theorems": [
    "C136_turn_partial",
    "C136_any_partial",
    "C136_every_partial",
    "C136_refuted"
   ],
   "note": "The order is false for requests at the same time (C136_refuted): GetNextSerialNum and Send are separate steps, and C136_every_partial shows that every assignment of the next numbers and every order of the frames comes about under some schedule. True: one frame per request with a number of its own (C136_any_partial, every schedule, while the numbers do not pass 65535), and the order for requests one after another, also past 65535 (C136_turn_partial). Writes succeed and the parameters can be encoded; see C65 for the others."
  },
  {
   "property": "C137",
   "status": "partial",
   "theorems": [
    "C137_atoi_partial",
    "C137_registration_partial",
    "C137_status_partial",
    "C137_refuted",
    "C137_refuted_large"
   ],
   "note": "False: GeoMeta.Encode exchanges the kinds of latitude and longitude (C137_refuted, see C33), and numbers beyond the field are cut to its bits (C137_refuted_large). True: what strconv.Atoi makes of every string (C137_atoi_partial), and every number that fits its field is sent as it is (C137_registration_partial, C137_status_partial). The strings regen generates are arguments. Position and speed are C88 and C89."
  },
  {
   "property": "C138",
   "status": "partial",
   "theorems": [
    "C138_partial",
    "C138_refuted",
    "C138_refuted_query",
    "C138_refuted_set"
   ],
   "note": "False for the requester: the server decodes the table the terminal sends and drops it, so it ends in the same state whatever the terminal has (C138_refuted). False for terminals of version 2019, where the header is written wrongly (C14): a query makes the terminal panic (C138_refuted_query) and a setting is acknowledged without any effect (C138_refuted_set). True for the others, for every series of requests (C138_partial): one frame each with the next serial number, the terminal ends with the table the settings give it (a setting changes only parameters already in the table unless the table is empty, C36) and answers with that table. The tables fit a message, writes succeed, and one request is over before the next; for requests at the same time see C136."
  },
  {
   "property": "C139",
   "status": "proved",
   "theorems": [
    "C139_steps",
    "C139_apart",
    "C139_params",
    "C139_params_apart",
    "C139_records",
    "C139_simulator"
   ],
   "note": "C139_steps: for every schedule of all goroutines of the server, including the two readers of C71 that take no lock; the connections (net.Conn), which synchronise themselves, and the clock are not counted as memory. C139_apart: without those two readers, on everything a mutex guards. C139_params, C139_params_apart: the same for the parameter objects of C112. C139_ex_wrong shows steps with a wrong account that the definition rejects. Which lock a call takes is read off the Go code. C139_records: by C71_records_partial, on the device records and location buffers too, for goroutines acting for different phones. C139_simulator: the steps of the simulator's goroutines."
  },
  {
   "property": "C140",
   "status": "partial",
   "theorems": [
    "C140_partial",
    "C140_refuted",
    "C140_kills_refuted",
    "C140_lost_refuted",
    "C140_answers_partial"
   ],
   "note": "Proved for bodies whose paramCnt is the number of their items and whose items have known ids and values of the right kind, for devices that are not of version 2019 (cf. C138); whatever the order and case of the members and whatever other members there are. Refuted otherwise: the number in the body is believed, so a body without paramCnt is answered with 200 and sets nothing, and one with a greater paramCnt than it has known parameters (an unknown one is left out but counted) is answered with 200 and makes the terminal panic, which ends the simulator (C140_kills_refuted); one null item or value of the wrong kind makes the handler panic (500); a body that is not JSON is answered with 400 but a setting of no parameters is sent. The binding is encoding/json's for these two types, transcribed in JsonM.v; JSON text, other content types, non-ASCII case folding and a repeated 'params' member are not modelled, and integers below 2^53 are assumed to be read exactly (a hypothesis of the theorems)."
  },
  {
   "property": "C141",
   "status": "partial",
   "theorems": [
    "C141_list_partial",
    "C141_geo_partial",
    "C141_text_partial",
    "C141_refuted",
    "C141_times_refuted"
   ],
   "note": "Proved: the list has every device once with each field under its name (texts that are UTF-8 as stored, numbers in decimal); the location request shows the device and its last location. Refuted: a text that is not UTF-8 (a device id may be any bytes, e.g. GBK) is shown with U+FFFD in the place of its bytes; mapstructure turns the time of the last message into an empty object under the Go field name; a location's time, which terminals report in GMT+8 (msg_0200.go:17), is parsed without a zone and shown as UTC, so it is off by eight hours. The values are what encoding/json and mapstructure 1.5 make of these types, transcribed in RenderM.v from their documented behaviour; the text of a float and of the last communication time are arguments; a report time that could not be parsed (time.Now in the code) is shown with the local zone, which is not modelled."
  },
  {
   "property": "C142",
   "status": "partial",
   "theorems": [
    "C142_refuted",
    "C142_guarded_partial",
    "C142_terminals_partial",
    "C142_pairs_partial",
    "C142_sane_partial",
    "C142_begins"
   ],
   "note": "False: C142_refuted: from every state with a terminal that is still offline, the status checker's read of the status races with the receiving goroutine's write when the platform's first general reply with result 0 arrives. C142_guarded_partial: no schedule has a race on the maps of the caches, the connections or the timer. C142_terminals_partial: goroutines of different phones do not race on records. C142_pairs_partial: the goroutines that build and register the terminal, send heartbeats and report locations take part in no race on a record, and two status checkers do not race. C142_sane_partial: index entries lead to objects with that key in every schedule. buildDeviceGeo, whose buffer is written before the goroutines that read it start, is not among the steps; the waiting of the two sending goroutines for the status checker is left out, so more schedules are covered than occur. The serial numbers of the sessions are not counted, as in C71. C139_simulator: the accounts of the steps say all that they touch."
  },
  {
   "property": "C143",
   "status": "partial",
   "theorems": [
    "C143_own_partial",
    "C143_refuted",
    "C143_refuted_panics"
   ],
   "note": "False for terminals that share a phone, as with the phoneReg of the default configuration and a concurrency above 1: C143_refuted: in some schedule all report the location of the one that started last, and none when their number is a multiple of 100; C143_refuted_panics: with that number, in some schedule the goroutine that reports panics. C143_own_partial: with different phones, in every schedule of a new process, every round reports, from the terminal's own base location. The location is any value; DatagenM.v's reportLocation takes it as an argument, which this justifies. Left out: messages from the platform that would touch the buffers (a 0x0200, which a platform does not send)."
  },
  {
   "property": "C144",
   "status": "partial",
   "theorems": [
    "C144_wrong_partial",
    "C144_refuted",
    "C144_right",
    "C144_content",
    "C144_none",
    "C144_reached"
   ],
   "note": "False for 0x8004: C144_refuted: it panics for every message other than a 0x0004 (unchecked type assertion). C144_wrong_partial: the others return the error. The rest holds: C144_right, C144_content (what the reply acknowledges and carries), C144_none, and C144_reached (no entry of the processor's table reaches the error or the panic; 0x8004 is in no entry)."
  },
  {
   "property": "C145",
   "status": "partial",
   "theorems": [
    "C145_data_partial",
    "C145_answer_partial",
    "C145_refuted_registration",
    "C145_refuted_logout",
    "C145_refuted_location",
    "C145_refuted_setting",
    "C145_serials_partial"
   ],
   "note": "False: an accepted registration is refused when it comes again, with result 1 and a text that is not the code (C145_refuted_registration; C92 shows what terminals that believe it do); a repeated logout is not acknowledged and closes the connection (C145_refuted_logout); a repeated location is stored again (C145_refuted_location); the first setting for a phone is stored as sent and sorted when it is repeated (C145_refuted_setting). C145_serials_partial: the serial number plays no role for what a message does, so repetitions cannot be recognised. True: all other messages change nothing the second time, on whatever connection (C145_data_partial), and get the same answer when the first copy did not change whether the phone is registered (C145_answer_partial). Messages in one frame; the second copy comes next, at the same time."
  },
  {
   "property": "C146",
   "status": "proved",
   "theorems": [
    "C146_clean",
    "C146_place",
    "C146_limits",
    "C146_in",
    "C146_below",
    "C146_outside",
    "C146_column",
    "C146_levels"
   ],
   "note": ""
  },
  {
   "property": "C147",
   "status": "partial",
   "theorems": [
    "C147_restored_partial",
    "C147_unknown",
    "C147_refuted",
    "C147_directories",
    "C147_files_partial",
    "C147_unknown_any",
    "C147_faults_partial",
    "C147_faults_any",
    "C147_faults_unknown",
    "C147_no_faults"
   ],
   "note": "C147_restored_partial: true for names written with slashes. False for names with a backslash, which Asset and AssetInfo accept: RestoreAsset takes filepath.Dir of the name as given, so on systems whose separator is the slash it does not make the directory and the write fails where there is none yet (C147_refuted). C147_directories: directories may be named with either kind of slash. C147_files_partial: a file is restored exactly when the last slash of its name is no backslash or its directory is already there. C147_faults_partial: when operations of the system fail, whichever and whatever they leave, it succeeds exactly when none does, and stops at the first that does, with all files but one copied or as before; C147_faults_any: for names with any slashes, nothing else is changed, and without an error all is copied; C147_no_faults: without them it is the same model. The functions are generated and not called by the server."
  },
  {
   "property": "C148",
   "status": "partial",
   "theorems": [
    "C148_never_later",
    "C148_never_back",
    "C148_together_partial",
    "C148_one_partial",
    "C148_since_partial",
    "C148_phone_partial",
    "C148_refuted"
   ],
   "note": "C148_never_later and C148_never_back: true for one event at a time, over all histories. C148_together_partial: never in the future under every schedule. C148_one_partial: a device record's time does not go back under any schedule in which at most one goroutine handles the messages of its phone, whatever else runs. C148_refuted: otherwise it can: the handler of a heartbeat reads the clock, a later heartbeat of the same phone is handled completely by another goroutine, then the first handler writes its earlier time. C148_since_partial: how far: under every schedule, never before the time the record had when the goroutines began. C148_phone_partial: the same of the device the phone leads to, which may be another record."
  },
  {
   "property": "C149",
   "status": "partial",
   "theorems": [
    "C149_reported_partial",
    "C149_refuted",
    "C149_answered_partial"
   ],
   "note": "Proved in every schedule: an answer carries a location that was in the phone's buffer at the beginning or the values of a report of this phone by one of the goroutines. When none of the goroutines beside it handles a report of this phone, the request is answered with no device, no location or the location reported last (C149_answered_partial). Refuted that there always is an answer: Latest (ring_buffer.go:53-58) compares Writer with 0 and then loads it again, and if the 100th, 200th, ... report is stored in between, the second load gives 0 and the index is -1 % 100 = -1, so the request panics (gin's Recovery then answers 500); C149_refuted gives such a schedule for every history after which 99, 199, ... reports are stored. The empty answer after 100, 200, ... reports is C76."
  },
  {
   "property": "C150",
   "status": "partial",
   "theorems": [
    "C150_moment_partial",
    "C150_refuted"
   ],
   "note": "Proved in every schedule: the request is answered, and its entries are those of the devices registered at one moment of the request, each once, with their ids, plates, phones, sessions, connections, keepalive times and versions. Refuted for the rest of the record: the list holds pointers, so statuses and times are those of when each record is read, and a list can show a combination that there never was (C150_refuted). In the model the unlocked copying of the map's values is one step and so is the reading of one record; that the copying races with the handlers is C71_refuted."
  },
  {
   "property": "C151",
   "status": "partial",
   "theorems": [
    "C151_messages_partial",
    "C151_registrations_partial",
    "C151_checks_partial",
    "C151_consistent",
    "C151_refuted_orphan",
    "C151_refuted_twice",
    "C151_refuted_forgotten",
    "C151_round"
   ],
   "note": "Proved in every consistent state, and in every schedule of a message, a registration or a check of the phone among goroutines acting for other phones, while no time passes. Refuted among goroutines acting for the same phone, i.e. two connections using one phone number: a logout between the look-up and the adding of the job in Register leaves a job without a device, whose next check panics outside any recover (C151_refuted_orphan); two registrations leave two jobs (C151_refuted_twice), and then one round of checks takes the device offline and clears it (C151_round); a heartbeat and a logout leave a device without a job (C58_refuted), which then stays registered, however much time passes, until it sends a message (C151_refuted_forgotten)."
  },
  {
   "property": "C152",
   "status": "partial",
   "theorems": [
    "C152_refuted",
    "C152_decode_refuted",
    "C152_count_partial"
   ],
   "note": "False of the code, which is unused and unfinished: Encode builds the packet and returns nil (C152_refuted, for every list); Decode reads nothing of the packet and appends empty items to the object's list (C152_decode_refuted, for every packet). C152_count_partial: a new object gets the phone, the count and as many items."
  },
  {
   "property": "C153",
   "status": "proved",
   "theorems": [
    "C153_same",
    "C153_order",
    "C153_pause",
    "C153_step",
    "C153_none_skipped",
    "C153_rate",
    "C153_backlog"
   ],
   "note": ""
  }
 ]
}