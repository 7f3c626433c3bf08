{
 "claims": [
  {
   "property": "C01",
   "status": "proved",
   "theorems": [
    "C01_gsm_roundtrip",
    "C01_encode_is_standard"
   ],
   "note": "Round trip, and the encoding is the standard's code character by character."
  },
  {
   "property": "C02",
   "status": "proved",
   "theorems": [
    "C02_is_gsm_text",
    "C02_strict_error"
   ],
   "note": "A str argument passes only when its bytes are ASCII; the theorem says so."
  },
  {
   "property": "C03",
   "status": "proved",
   "theorems": [
    "C03_decode_total",
    "C03_reencode"
   ],
   "note": "Totality on septets and exact re-encoding iff clean."
  },
  {
   "property": "C04",
   "status": "proved",
   "theorems": [
    "C04_encode_replace",
    "C04_encode_ignore"
   ],
   "note": "Stand-ins are listed in SpecGsm.v."
  },
  {
   "property": "C05",
   "status": "proved",
   "theorems": [
    "C05_pack",
    "C05_packed_unique",
    "C05_pack_with_header"
   ],
   "note": "Bit stream characterisation, uniqueness, and the form with a six-octet header."
  },
  {
   "property": "C06",
   "status": "proved",
   "theorems": [
    "C06_exact",
    "C06_unpack_pack",
    "C06_unpack_pack_long_refuted"
   ],
   "note": "Septets come back if and only if there are at most 161 of them (C06_exact); beyond the claim is false and refuted by a witness."
  },
  {
   "property": "C07",
   "status": "proved",
   "theorems": [
    "C07_unpack_septets",
    "C07_unpack_agree"
   ],
   "note": ""
  },
  {
   "property": "C08",
   "status": "proved",
   "theorems": [
    "C08_relative_validity",
    "C08_period_increasing"
   ],
   "note": "Floor semantics in all regimes, microsecond resolution."
  },
  {
   "property": "C09",
   "status": "proved",
   "theorems": [
    "C09_relative_error"
   ],
   "note": ""
  },
  {
   "property": "C10",
   "status": "proved",
   "theorems": [
    "C10_exact",
    "C10_absolute_validity",
    "C10_large_offset_refuted"
   ],
   "note": "The offset is right if and only if it is below 20 hours (C10_exact); larger ones are refuted by a witness."
  },
  {
   "property": "C11",
   "status": "partial",
   "theorems": [
    "C11_exact",
    "C11_from_timezone_partial",
    "C11_from_timezone_negative",
    "C11_from_timezone_refuted"
   ],
   "note": "True for '+hhmm'; false of the code for every '-hhmm' but -1200 (C11_exact; the wrong value is proved, witness -0300)."
  },
  {
   "property": "C12",
   "status": "proved",
   "theorems": [
    "C12_destination",
    "C12_service_centre",
    "C12_reads_back"
   ],
   "note": "Field layout of both addresses; in whole PDUs through C22."
  },
  {
   "property": "C13",
   "status": "proved",
   "theorems": [
    "C13_number",
    "C13_csca",
    "C13_empty"
   ],
   "note": "Both setters, including None and the empty string."
  },
  {
   "property": "C14",
   "status": "proved",
   "theorems": [
    "C14_swap_number",
    "C14_semi_octets_exist"
   ],
   "note": ""
  },
  {
   "property": "C15",
   "status": "proved",
   "theorems": [
    "C15_threshold"
   ],
   "note": "8-bit texts must consist of octets."
  },
  {
   "property": "C16",
   "status": "proved",
   "theorems": [
    "C16_partition"
   ],
   "note": "All codings; that the k-th PDU carries the k-th part is shown for 7-bit and UCS-2 (for 8-bit see C20)."
  },
  {
   "property": "C17",
   "status": "proved",
   "theorems": [
    "C17_no_split_escapes"
   ],
   "note": ""
  },
  {
   "property": "C18",
   "status": "proved",
   "theorems": [
    "C18_gsm_multipart"
   ],
   "note": "Any SMS-DELIVER from a numeric sender with the same user data, any case of hexadecimal digits."
  },
  {
   "property": "C19",
   "status": "proved",
   "theorems": [
    "C19_ucs2_multipart"
   ],
   "note": ""
  },
  {
   "property": "C20",
   "status": "partial",
   "theorems": [
    "C20_exact",
    "C20_received",
    "C20_eight_bit_parts_refuted"
   ],
   "note": "False of the code: 8-bit parts never carry the header. Settled exactly: C20_exact says what the PDUs hold for every message, C20_received what a receiver makes of them, C20_eight_bit_parts_refuted that no part is well formed."
  },
  {
   "property": "C21",
   "status": "proved",
   "theorems": [
    "C21_single"
   ],
   "note": "8-bit texts must consist of octets (C22_wide_8bit_refuted shows why)."
  },
  {
   "property": "C22",
   "status": "proved",
   "theorems": [
    "C22_submit_fields",
    "C22_single_user_data",
    "C22_succeeds",
    "C22_wide_8bit_refuted",
    "C22_wide_8bit_all",
    "C22_wide_8bit_never"
   ],
   "note": "Fields, user data and success. 8-bit texts with characters above 255, which to_pdu accepts, are outside: C22_wide_8bit_all shows for all of them that the user data is longer than announced."
  },
  {
   "property": "C23",
   "status": "proved",
   "theorems": [
    "C23_length"
   ],
   "note": ""
  },
  {
   "property": "C24",
   "status": "proved",
   "theorems": [
    "C24_bookkeeping"
   ],
   "note": "The common reference is part of C16_partition."
  },
  {
   "property": "C25",
   "status": "proved",
   "theorems": [
    "C25_references"
   ],
   "note": ""
  },
  {
   "property": "C26",
   "status": "proved",
   "theorems": [
    "C26_repeatable"
   ],
   "note": "Any number of further calls, whole object state."
  },
  {
   "property": "C27",
   "status": "partial",
   "theorems": [
    "C27_later_exact",
    "C27_first_coding_partial",
    "C27_changed_text_refuted"
   ],
   "note": "True until the first to_pdu (C27_first_coding_partial); false afterwards (C27_changed_text_refuted): C27_later_exact, every later message is sent in the coding of the first text until a coding is assigned."
  },
  {
   "property": "C28",
   "status": "partial",
   "theorems": [
    "C28_eight_bit_all_refuted",
    "C28_too_many_parts",
    "C28_pdus_or_valueerror",
    "C28_at_most_255",
    "C28_eight_bit_refuted"
   ],
   "note": "Proved for 7-bit and UCS-2; false for 8-bit: C28_eight_bit_all_refuted, every long message that is encoded has more than 255 parts (witness: C28_eight_bit_refuted)."
  },
  {
   "property": "C29",
   "status": "proved",
   "theorems": [
    "C29_strict",
    "C29_not_strict"
   ],
   "note": ""
  },
  {
   "property": "C30",
   "status": "proved",
   "theorems": [
    "C30_deliver"
   ],
   "note": "Senders are numbers or names; a name is shown as C32_exact says (an at sign appended when it has 7 modulo 8 septets). Coding schemes of the general and message class groups; the others are C39."
  },
  {
   "property": "C31",
   "status": "proved",
   "theorems": [
    "C31_utc"
   ],
   "note": ""
  },
  {
   "property": "C32",
   "status": "partial",
   "theorems": [
    "C32_names_partial",
    "C32_seven_refuted",
    "C32_exact"
   ],
   "note": "Proved except for names of 7 modulo 8 septets, for which the code appends an at sign (refuted). C32_exact: an at sign is appended to every such name and to no other."
  },
  {
   "property": "C33",
   "status": "proved",
   "theorems": [
    "C33_elements"
   ],
   "note": ""
  },
  {
   "property": "C34",
   "status": "proved",
   "theorems": [
    "C34_total"
   ],
   "note": ""
  },
  {
   "property": "C35",
   "status": "proved",
   "theorems": [
    "C35_status_report"
   ],
   "note": "Dates are the local times as transmitted (see C67)."
  },
  {
   "property": "C36",
   "status": "proved",
   "theorems": [
    "C36_failures"
   ],
   "note": ""
  },
  {
   "property": "C37",
   "status": "partial",
   "theorems": [
    "C37_all",
    "C37_same",
    "C37_assign_partial",
    "C37_stale_refuted",
    "C37_exact"
   ],
   "note": "False of the code: header, type and sr of the previous PDU survive (refuted). Settled for every string and every object: C37_all says which attributes are those of a new object (pdu, csca, number, text, fmt, mtype) and that the others keep their old value when the PDU does not set them; C37_same when the result equals a new object."
  },
  {
   "property": "C38",
   "status": "partial",
   "theorems": [
    "C38_gsm_partial",
    "C38_other_codings_refuted",
    "C38_exact"
   ],
   "note": "Proved for the GSM alphabet; false for 8-bit and UCS-2 (refuted). C38_exact: in 8-bit all following octets become text; in UCS-2 too, and an odd number is rejected."
  },
  {
   "property": "C39",
   "status": "partial",
   "theorems": [
    "C39_common_partial",
    "C39_waiting_refuted",
    "C39_exact"
   ],
   "note": "Proved for the general and message class groups; false for some message waiting and reserved groups (refuted); C39_exact gives exactly the DCS octets for which every accepted PDU is read with the right alphabet."
  },
  {
   "property": "C40",
   "status": "proved",
   "theorems": [
    "C40_cursor",
    "C40_preview_keeps"
   ],
   "note": ""
  },
  {
   "property": "C41",
   "status": "proved",
   "theorems": [
    "C41_decode",
    "C41_encode",
    "C41_unique",
    "C41_roundtrip"
   ],
   "note": ""
  },
  {
   "property": "C42",
   "status": "proved",
   "theorems": [
    "C42_short_integer",
    "C42_short_integer_error",
    "C42_value_length"
   ],
   "note": ""
  },
  {
   "property": "C43",
   "status": "partial",
   "theorems": [
    "C43_low_bits",
    "C43_roundtrip_refuted",
    "C43_roundtrip_partial"
   ],
   "note": "False of the code for every octet from 16 up (C43_roundtrip_refuted): decoding keeps the low four bits (C43_low_bits). It holds below 16 (C43_roundtrip_partial)."
  },
  {
   "property": "C44",
   "status": "partial",
   "theorems": [
    "C44_exact",
    "C44_decode",
    "C44_reversed",
    "C44_roundtrip_refuted",
    "C44_roundtrip_partial"
   ],
   "note": "False of the code from 256 up: the encoder writes the octets least significant first (C44_reversed, all sizes; C44_roundtrip_refuted), the decoder reads them most significant first (C44_decode). It holds below 256 (C44_roundtrip_partial), and exactly for the numbers whose octets read the same backwards (C44_exact)."
  },
  {
   "property": "C45",
   "status": "proved",
   "theorems": [
    "C45_exact",
    "C45_roundtrip"
   ],
   "note": "C45_exact: these are all the texts that come back."
  },
  {
   "property": "C46",
   "status": "proved",
   "theorems": [
    "C46_exact",
    "C46_roundtrip",
    "C46_error"
   ],
   "note": "C46_exact: these are all the tokens that come back."
  },
  {
   "property": "C47",
   "status": "partial",
   "theorems": [
    "C47_exact",
    "C47_roundtrip_exact",
    "C47_roundtrip",
    "C47_octet",
    "C47_numbers",
    "C47_text_refuted",
    "C47_text_partial"
   ],
   "note": "False of the code for strings with several dots (sent as nothing) and bare major numbers (C47_text_refuted). Settled for all strings: C47_exact gives the octets sent for every string, C47_roundtrip_exact exactly the strings that are read back."
  },
  {
   "property": "C48",
   "status": "partial",
   "theorems": [
    "C48_roundtrip_partial",
    "C48_parameters_refuted",
    "C48_nested_refuted",
    "C48_exact"
   ],
   "note": "False of the code for every content type with parameters (refuted) and for nested encodings. C48_exact: a content type is read back just when it has no parameters and its media type has a number or is text beginning with printable ASCII."
  },
  {
   "property": "C49",
   "status": "partial",
   "theorems": [
    "C49_unmoved_partial",
    "C49_moved_refuted",
    "C49_exact"
   ],
   "note": "False of five decoders. Fifteen are proved to leave the position alone when they refuse (C49_unmoved_partial); five are proved to move (C49_moved_refuted), and C49_exact says of those five for which first octets they do not."
  },
  {
   "property": "C50",
   "status": "partial",
   "theorems": [
    "C50_exact",
    "C50_roundtrip_partial",
    "C50_empty_refuted",
    "C50_from_refuted",
    "C50_status_refuted",
    "C50_size_refuted",
    "C50_name_refuted"
   ],
   "note": "False of the code as a whole (the refuted theorems show values that are lost). Settled for all headers: C50_exact gives exactly the names and values that are read back, for every name and every value that is not a bool."
  },
  {
   "property": "C51",
   "status": "proved",
   "theorems": [
    "C51_headers",
    "C51_unchanged"
   ],
   "note": ""
  },
  {
   "property": "C52",
   "status": "proved",
   "theorems": [
    "C52_message",
    "C52_text_slides"
   ],
   "note": "For all text slides and, more generally, for slides of any sendable parts, any rendering of the SMIL, any dictionary order; messages up to sys.maxint bytes."
  },
  {
   "property": "C53",
   "status": "partial",
   "theorems": [
    "C53_content_refuted",
    "C53_decode_refuted"
   ],
   "note": "False of the code (refuted for every message with an attached part): attached parts are counted but never written, and decoding then runs out of data."
  },
  {
   "property": "C54",
   "status": "partial",
   "theorems": [
    "C54_body_partial",
    "C54_headers_refuted",
    "C54_bytes_refuted",
    "C54_exact"
   ],
   "note": "False of the code for headers and bytes (refuted); proved for the body; C54_exact: which messages come out the same when encoded twice."
  },
  {
   "property": "C55",
   "status": "partial",
   "theorems": [
    "C55_recipient_partial",
    "C55_no_recipient",
    "C55_bcc_refuted",
    "C55_exact"
   ],
   "note": "Cc and To proved; false of the code for Bcc, which is sent (refuted); C55_exact: exactly which messages go out as send requests."
  },
  {
   "property": "C56",
   "status": "partial",
   "theorems": [
    "C56_roundtrip_partial",
    "C56_location_refuted",
    "C56_exact"
   ],
   "note": "Whole parts proved for headers that survive. C56_exact: a header of a part is read back just when its name has no number and can be sent as text with a plain text value, it is Accept with a plain media type, or it is a well-known header numbered 25 to 55 except Pragma with a plain text value. False of the code for Content-Location of every file part (refuted)."
  },
  {
   "property": "C57",
   "status": "proved",
   "theorems": [
    "C57_decode"
   ],
   "note": ""
  },
  {
   "property": "C58",
   "status": "partial",
   "theorems": [
    "C58_refuted",
    "C58_origin_partial",
    "C58_exact",
    "C58_present_exact"
   ],
   "note": "False of the code: four default headers appear (refuted). C58_exact gives the headers of every decoded message: the last field of each name among the fields read, else the default; C58_present_exact says when the claim holds."
  },
  {
   "property": "C59",
   "status": "partial",
   "theorems": [
    "C59_length_partial",
    "C59_stale_refuted",
    "C59_exact"
   ],
   "note": "False of the code for every file that changes size after its data was read (refuted); settled by C59_exact: after every history the two agree exactly if the part's data was not read from a file that has another size by now or is gone."
  },
  {
   "property": "C60",
   "status": "proved",
   "theorems": [
    "C60_add_image",
    "C60_add_audio",
    "C60_add_text",
    "C60_duration"
   ],
   "note": "Integers of type int; longs raise TypeError, which the theorems say."
  },
  {
   "property": "C61",
   "status": "partial",
   "theorems": [
    "C61_slides_partial",
    "C61_sound_first_refuted",
    "C61_text_moved_refuted",
    "C61_exact"
   ],
   "note": "False of the code when a slide has audio but no text (refuted in both forms); proved otherwise, any rendering of the document; C61_exact: a faithful document exists exactly in that case."
  },
  {
   "property": "C62",
   "status": "partial",
   "theorems": [
    "C62_slides_refuted",
    "C62_attached_partial",
    "C62_exact"
   ],
   "note": "False of the code for every message with a slide (refuted); C62_exact: a list is returned exactly without slides, and then it is the attached parts."
  },
  {
   "property": "C63",
   "status": "proved",
   "theorems": [
    "C63_is_push",
    "C63_extract",
    "C63_refuses",
    "C63_is_mms"
   ],
   "note": ""
  },
  {
   "property": "C64",
   "status": "proved",
   "theorems": [
    "C64_parameters_exact",
    "C64_fields_exact",
    "C64_names_grow",
    "C64_parameters_grow",
    "C64_unknown_version"
   ],
   "note": "C64_parameters_exact and C64_fields_exact give the tables of every version against the standard."
  },
  {
   "property": "C65",
   "status": "proved",
   "theorems": [
    "C65_quality"
   ],
   "note": ""
  },
  {
   "property": "C66",
   "status": "proved",
   "theorems": [
    "C66_flatten"
   ],
   "note": ""
  },
  {
   "property": "C67",
   "status": "partial",
   "theorems": [
    "C67_report_utc_refuted",
    "C67_exact"
   ],
   "note": "False of the code: the offset is ignored (refuted). C67_exact: the date is in UTC just when the offset is zero."
  },
  {
   "property": "C68",
   "status": "partial",
   "theorems": [
    "C68_port_width_refuted",
    "C68_never_eight",
    "C68_exact"
   ],
   "note": "False of the code for every 8-bit port element (refuted); C68_never_eight: the flag is never set; C68_exact: it is right exactly when the last port element is a 16-bit one."
  },
  {
   "property": "C69",
   "status": "proved",
   "theorems": [
    "C69_decode_replace",
    "C69_decode_ignore",
    "C69_decode_strict",
    "C69_strict_error"
   ],
   "note": ""
  },
  {
   "property": "C70",
   "status": "partial",
   "theorems": [
    "C70_length_partial",
    "C70_length_refuted",
    "C70_decode_exact"
   ],
   "note": "False of the code: the returned length is that of the output (C70_length_refuted); C70_length_partial (encoding) and C70_decode_exact (decoding) give exactly when it is that of the input."
  },
  {
   "property": "C71",
   "status": "partial",
   "theorems": [
    "C71_save_load",
    "C71_message",
    "C71_own_file_refuted",
    "C71_exact"
   ],
   "note": "Settled exactly: a save gives the encoding back iff no slide part refers to the target file or the target was empty before (C71_exact; C71_save_load, C71_message for the first case). False of the code otherwise: the target is emptied before its own parts are read (C71_own_file_refuted)."
  },
  {
   "property": "C72",
   "status": "partial",
   "theorems": [
    "C72_failed_save_refuted",
    "C72_failed_save_partial",
    "C72_exact"
   ],
   "note": "Settled exactly: a failed save leaves the target as it was iff it could not be opened or was empty already (C72_exact). False of the code otherwise: the target is emptied before encoding runs (C72_failed_save_refuted). Other files are never touched (C72_failed_save_partial)."
  },
  {
   "property": "C73",
   "status": "partial",
   "theorems": [
    "C73_field_exact",
    "C73_field_refuted"
   ],
   "note": "False of the code as stated. C73_field_exact settles it exactly: a field of the grammar is decoded to its meaning if and only if it is not one of the five constructs of misread_field; C73_field_refuted gives cases of three of them."
  },
  {
   "property": "C74",
   "status": "partial",
   "theorems": [
    "C74_content_type_partial",
    "C74_byteranges_refuted",
    "C74_quoted_refuted",
    "C74_any_charset_refuted",
    "C74_level_refuted",
    "C74_parameter_exact",
    "C74_media_exact"
   ],
   "note": "Proved for every content type without the four constructs of misread_param / the misspelt multipart/byteranges. C74_parameter_exact and C74_media_exact: a parameter (a media type) is decoded to its meaning if and only if it is none of them."
  },
  {
   "property": "C75",
   "status": "partial",
   "theorems": [
    "C75_bare_partial",
    "C75_message_partial",
    "C75_restriction",
    "C75_part_header_refuted",
    "C75_part_header_exact"
   ],
   "note": "Proved for all messages of any size without the misread fields, parameters and part headers; C75_restriction shows the restricted grammar is part of the standard's; C75_part_header_exact says of each part header of the standard whether it is read right; C75_part_header_refuted shows part headers that are lost."
  },
  {
   "property": "C76",
   "status": "partial",
   "theorems": [
    "C76_recipients_refuted",
    "C76_recipients_partial",
    "C76_exact",
    "C76_message_exact"
   ],
   "note": "False of the code: of two values of a repeated field only the last is kept (refuted for all pairs of recipients). C76_exact and C76_message_exact: all recipients are readable exactly when no recipient field is repeated with another value."
  },
  {
   "property": "C77",
   "status": "partial",
   "theorems": [
    "C77_lost_refuted",
    "C77_single_refuted"
   ],
   "note": "False of the code: the content is read as a multipart body (C77_single_refuted); C77_lost_refuted: for every message the decoder accepts, no part of the result has the content as its data."
  },
  {
   "property": "C78",
   "status": "partial",
   "theorems": [
    "C78_charset_refuted"
   ],
   "note": "False of the code: the decoder drops the number of the character set; refuted for every text and every two character sets."
  },
  {
   "property": "C79",
   "status": "partial",
   "theorems": [
    "C79_field_partial",
    "C79_text_refuted",
    "C79_size_refuted",
    "C79_exact"
   ],
   "note": "C79_exact: exactly which headers are written as fields that mean them (ASCII texts, tables, versions, sizes whose octets read the same backwards); refuted for texts that need a quote and for other sizes of several octets (octets reversed)."
  },
  {
   "property": "C80",
   "status": "partial",
   "theorems": [
    "C80_exact",
    "C80_message_partial",
    "C80_parameters_refuted",
    "C80_parameters_exact",
    "C80_media_exact",
    "C80_part_header_exact"
   ],
   "note": "C80_exact: exactly which messages (dictionaries without repeated names, a version with at most one dot) are encoded to a multipart message of the standard that means them: standard headers and slide parts, no attached part. So it is false for every content type with parameters (C80_parameters_exact) and for attached parts (C53). C80_media_exact, C80_part_header_exact, C79_exact: exactly which content types and headers are standard."
  },
  {
   "property": "C81",
   "status": "partial",
   "theorems": [
    "C81_exact",
    "C81_notification_partial",
    "C81_header_refuted"
   ],
   "note": "C81_exact says for push headers of any length what the MMS decoder is given: the notification, preceded by what the header has beyond 128 octets. Hence proved for push headers of at most 128 octets and notifications of the part of the grammar the decoder reads (C75); refuted for every longer header, whose length is read from one octet."
  },
  {
   "property": "C82",
   "status": "partial",
   "theorems": [
    "C82_exact",
    "C82_fewest_partial",
    "C82_escape_refuted"
   ],
   "note": "Proved for every text in the GSM alphabet and for 8-bit and UCS-2 texts without character 27; refuted for UCS-2 texts with it. C82_exact: for 8-bit and UCS-2, the messages are as few as possible just when the last part is longer than the number of parts cut short before a character 27."
  },
  {
   "property": "C83",
   "status": "partial",
   "theorems": [
    "C83_parts",
    "C83_headers",
    "C83_message_partial",
    "C83_body_partial",
    "C83_accepted_refuted",
    "C83_exact"
   ],
   "note": "General theorems for all octet strings (C83_parts, C83_headers). For messages of the standard that the decoder reads, C83_exact settles every place to cut: accepted between two fields, in a field with a textual name after its second octet, and in or before the number of parts (shown without parts and with just the fields before the cut); refused everywhere else. False of the code as stated (C83_accepted_refuted)."
  },
  {
   "property": "C84",
   "status": "proved",
   "theorems": [
    "C84_pieces",
    "C84_size"
   ],
   "note": "for all octet strings"
  },
  {
   "property": "C85",
   "status": "partial",
   "theorems": [
    "C85_header_exact",
    "C85_no_text_partial",
    "C85_text_refuted",
    "C85_split_partial",
    "C85_shorter",
    "C85_report_partial",
    "C85_report_refuted"
   ],
   "note": "False of the code as stated: a PDU cut in its user data is accepted with a shorter text (C85_text_refuted, for all messages), and a status report without its status octet is accepted (C85_report_refuted). Every place to cut is settled: up to the user data length refused (C85_no_text_partial); in the user data header C85_header_exact says which cuts are refused, and that the others are accepted with an empty text and the elements that are there; behind it C85_text_refuted and C85_split_partial; status reports C85_report_partial and C85_report_refuted. An accepted PDU never shows anything but the beginning of the text (C85_shorter)."
  },
  {
   "property": "C86",
   "status": "partial",
   "theorems": [
    "C86_parts_refuted",
    "C86_content_refuted",
    "C86_headers_partial",
    "C86_never_refuted"
   ],
   "note": "False of the code for every message: no received message whose headers can be sent is passed on with its parts (C86_never_refuted). With parts, passing it on gives undecodable data that does not depend on the parts; without, a SMIL part is added and the headers are those of C86_headers_partial."
  },
  {
   "property": "C87",
   "status": "partial",
   "theorems": [
    "C87_assembly_partial",
    "C87_reference_refuted",
    "C87_mixed_refuted",
    "C87_same_object_partial",
    "C87_exact"
   ],
   "note": "Settled exactly for messages in the GSM alphabet and UCS-2 (C87_exact): the parts of all messages are put together correctly, in whatever order they arrive, exactly when any two messages with the same reference number have the same text and coding. So it holds with different reference numbers and for consecutive messages of one object (C87_assembly_partial, C87_same_object_partial). False of the code for new objects: each numbers its message with 1 (C87_reference_refuted), so two pairs of messages can give the same PDUs (C87_mixed_refuted). 8-bit messages carry no numbers (C20)."
  },
  {
   "property": "C88",
   "status": "partial",
   "theorems": [
    "C88_frames",
    "C88_framed_partial",
    "C88_attached_refuted",
    "C88_exact",
    "C88_octets"
   ],
   "note": "C88_frames gives the frame of every body, C88_octets the octets. Settled exactly: the body is the multipart body of the SMIL text and the slide parts just when nothing is attached and len() of every slide part is the length of its data (C88_exact, C88_framed_partial). False of the code otherwise: with attached parts the body is no multipart body of anything (C88_attached_refuted), and files can change after they were read (C59_stale_refuted)."
  },
  {
   "property": "C89",
   "status": "partial",
   "theorems": [
    "C89_cuts_exact",
    "C89_cut_at",
    "C89_exact",
    "C89_torn_refuted"
   ],
   "note": "False of the code as stated (C89_torn_refuted). C89_exact (texts without character 27) and C89_cuts_exact (all texts) say exactly for which texts it holds."
  },
  {
   "property": "C90",
   "status": "partial",
   "theorems": [
    "C90_sent",
    "C90_refused",
    "C90_eight_bit_refuted"
   ],
   "note": "Proved for the GSM alphabet and UCS-2; refuted for 8-bit coding, where characters above 255 are never refused. C115_exact says for every coding exactly which texts are refused."
  },
  {
   "property": "C91",
   "status": "proved",
   "theorems": [
    "C91_file",
    "C91_new",
    "C91_slide"
   ],
   "note": ""
  },
  {
   "property": "C92",
   "status": "proved",
   "theorems": [
    "C92_content_type",
    "C92_other",
    "C92_no_type"
   ],
   "note": ""
  },
  {
   "property": "C93",
   "status": "partial",
   "theorems": [
    "C93_reused_refuted",
    "C93_new_refuted",
    "C93_assigned_partial"
   ],
   "note": "False of the code: all PDUs of one object carry the same message reference whatever is done to it except assigning ref, and all new objects use 0. Proved: an assigned reference r is sent as r mod 256."
  },
  {
   "property": "C94",
   "status": "proved",
   "theorems": [
    "C94_settings"
   ],
   "note": ""
  },
  {
   "property": "C95",
   "status": "proved",
   "theorems": [
    "C95_again"
   ],
   "note": ""
  },
  {
   "property": "C96",
   "status": "proved",
   "theorems": [
    "C96_notation"
   ],
   "note": ""
  },
  {
   "property": "C97",
   "status": "proved",
   "theorems": [
    "C97_type_refused",
    "C97_submit_refused"
   ],
   "note": ""
  },
  {
   "property": "C98",
   "status": "partial",
   "theorems": [
    "C98_exact",
    "C98_blank_refuted"
   ],
   "note": "False of the code: int(x, 16) takes blank+digit, digit+blank, plus+digit and '-0' for octets. Exactly which strings are taken, and for what, is proved; a blank may replace any leading zero of an octet."
  },
  {
   "property": "C99",
   "status": "partial",
   "theorems": [
    "C99_only",
    "C99_exact",
    "C99_unreadable_refuted",
    "C99_readable",
    "C99_lines_refuted"
   ],
   "note": "Exactly settled: true just when all sources and texts are UTF-8 without control characters, tabs and line ends (C99_exact). Refuted otherwise: line ends and tabs are read as blanks, control characters make the document unreadable."
  },
  {
   "property": "C100",
   "status": "partial",
   "theorems": [
    "C100_exact",
    "C100_late_refuted"
   ],
   "note": "Exactly settled: false just for media with a positive begin within the slide and an end of 0 or less, which get end=0 and are never shown. For messages in which every slide with sound has text (others have no proper document, C61)."
  },
  {
   "property": "C101",
   "status": "partial",
   "theorems": [
    "C101_seconds_refuted",
    "C101_dur_refuted"
   ],
   "note": "False of the code: times are written without a metric, which SMIL reads as seconds, and the slide duration is in an attribute duration, which SMIL does not have."
  },
  {
   "property": "C102",
   "status": "partial",
   "theorems": [
    "C102_exact",
    "C102_text_refuted"
   ],
   "note": "Exactly settled: true just when no slide has text and no two files have the same name; text elements carry the text itself and text parts have no name."
  },
  {
   "property": "C103",
   "status": "proved",
   "theorems": [
    "C103_message",
    "C103_report",
    "C103_kinds"
   ],
   "note": "For a new object per PDU; an object that is given a second PDU keeps sr and the header of the first (C37_exact)."
  },
  {
   "property": "C104",
   "status": "partial",
   "theorems": [
    "C104_exact",
    "C104_arrives"
   ],
   "note": "Proved exactly: holds just when every slide with sound has text as well and all sources and texts are UTF-8 without control characters, tabs and line ends (C104_exact, C104_arrives); false of the code for the other messages."
  },
  {
   "property": "C105",
   "status": "partial",
   "theorems": [
    "C105_kept_partial",
    "C105_refused_refuted",
    "C105_pdu_exact",
    "C105_mixed_refuted"
   ],
   "note": "False of the code for every refused string that gets past the length check: the pdu attribute is replaced (C105_refused_refuted, C105_pdu_exact), and sender and coding of the refused PDU can stand beside the old text (C105_mixed_refuted). Proved: text, type and report always remain, and a strict object is untouched by strings of odd length."
  },
  {
   "property": "C106",
   "status": "partial",
   "theorems": [
    "C106_exact",
    "C106_cut_refuted",
    "C106_refused_partial"
   ],
   "note": "False of the code: when the last element breaks off in its data, it is accepted with the data that are there unless it is about parts or ports (C106_cut_refuted). Settled exactly for all octet strings in C106_exact."
  },
  {
   "property": "C107",
   "status": "partial",
   "theorems": [
    "C107_exact",
    "C107_mistaken_refuted"
   ],
   "note": "False of the code: digits above 9 are shown in hexadecimal (asterisk as a, number sign as b, the letter a as c). C107_exact: shown as written just when all digits are decimal; C107_mistaken_refuted: otherwise it can be the way another number is written."
  },
  {
   "property": "C108",
   "status": "proved",
   "theorems": [
    "C108_tell"
   ],
   "note": "8-bit texts of several PDUs, whose parts lack the header (C20), are outside. Destinations and service centres are compared as addresses (the setter lets a final newline through)."
  },
  {
   "property": "C109",
   "status": "partial",
   "theorems": [
    "C109_exact",
    "C109_others_partial",
    "C109_retry",
    "C109_kept_refuted"
   ],
   "note": "False of the code: the encoder works on the headers of the message itself and deletes the three leading headers as it goes. C109_exact gives the condition under which a failure leaves the headers as they were; C109_retry: a corrected message is sent as m-retrieve-conf; C109_kept_refuted is a concrete send request; C109_others_partial: everything else is kept."
  },
  {
   "property": "C110",
   "status": "proved",
   "theorems": [
    "C110_dump"
   ],
   "note": ""
  },
  {
   "property": "C111",
   "status": "partial",
   "theorems": [
    "C111_tell",
    "C111_headers",
    "C111_show",
    "C111_attached_refuted"
   ],
   "note": "Proved of headers, slide show and slide parts of messages that survive sending (C52, C104). False of attached parts, of which only the number matters (C111_attached_refuted, for all messages)."
  },
  {
   "property": "C112",
   "status": "partial",
   "theorems": [
    "C112_compact",
    "C112_exact",
    "C112_quoted_refuted"
   ],
   "note": "Settled exactly: false of the code just for No-value, read as the number 0, and quoted strings, whose quote is kept."
  },
  {
   "property": "C113",
   "status": "proved",
   "theorems": [
    "C113_klass",
    "C113_validity",
    "C113_reachable"
   ],
   "note": ""
  },
  {
   "property": "C114",
   "status": "proved",
   "theorems": [
    "C114_only",
    "C114_all",
    "C114_exact"
   ],
   "note": ""
  },
  {
   "property": "C115",
   "status": "proved",
   "theorems": [
    "C115_only",
    "C115_all",
    "C115_exact",
    "C115_letters"
   ],
   "note": ""
  },
  {
   "property": "C116",
   "status": "proved",
   "theorems": [
    "C116_exact",
    "C116_assign",
    "C116_header"
   ],
   "note": ""
  },
  {
   "property": "C117",
   "status": "proved",
   "theorems": [
    "C117_message",
    "C117_file",
    "C117_ends",
    "C117_header",
    "C117_decoders",
    "C117_fields",
    "C117_decimal"
   ],
   "note": ""
  },
  {
   "property": "C118",
   "status": "proved",
   "theorems": [
    "C118_headers",
    "C118_type",
    "C118_type_read",
    "C118_data",
    "C118_length"
   ],
   "note": ""
  },
  {
   "property": "C119",
   "status": "proved",
   "theorems": [
    "C119_encode",
    "C119_decode"
   ],
   "note": ""
  },
  {
   "property": "C120",
   "status": "proved",
   "theorems": [
    "C120_program",
    "C120_copies",
    "C120_others",
    "C120_late"
   ],
   "note": ""
  },
  {
   "property": "C121",
   "status": "proved",
   "theorems": [
    "C121_ignored",
    "C121_cut",
    "C121_file",
    "C121_bare_refuted"
   ],
   "note": ""
  },
  {
   "property": "C122",
   "status": "proved",
   "theorems": [
    "C122_shown",
    "C122_septets"
   ],
   "note": ""
  },
  {
   "property": "C123",
   "status": "proved",
   "theorems": [
    "C123_octets",
    "C123_header_once",
    "C123_parameter_once",
    "C123_part_header_once",
    "C123_type_once"
   ],
   "note": ""
  },
  {
   "property": "C124",
   "status": "proved",
   "theorems": [
    "C124_characters",
    "C124_once",
    "C124_exact"
   ],
   "note": ""
  },
  {
   "property": "C125",
   "status": "partial",
   "theorems": [
    "C125_text",
    "C125_tells",
    "C125_width_partial",
    "C125_report",
    "C125_width_refuted",
    "C125_width_exact"
   ],
   "note": "Elements, numbers and ports are told (C125_tells), the text is settled character by character (C125_text), and so are status reports (C125_report). The width of the reference is told unless the header has references of both widths (C125_width_partial); the full claim is false of the code (C125_width_refuted). C125_width_exact: the width is left open just for headers with two references of different width that say the same."
  },
  {
   "property": "C126",
   "status": "proved",
   "theorems": [
    "C126_after",
    "C126_stands_once",
    "C126_sent"
   ],
   "note": ""
  },
  {
   "property": "C127",
   "status": "proved",
   "theorems": [
    "C127_after",
    "C127_once",
    "C127_plain",
    "C127_type",
    "C127_sent"
   ],
   "note": ""
  },
  {
   "property": "C128",
   "status": "proved",
   "theorems": [
    "C128_slide",
    "C128_once"
   ],
   "note": ""
  },
  {
   "property": "C129",
   "status": "proved",
   "theorems": [
    "C129_shows",
    "C129_object",
    "C129_once",
    "C129_last"
   ],
   "note": ""
  },
  {
   "property": "C130",
   "status": "proved",
   "theorems": [
    "C130_holds",
    "C130_once",
    "C130_kept",
    "C130_frozen"
   ],
   "note": ""
  },
  {
   "property": "C131",
   "status": "proved",
   "theorems": [
    "C131_complete"
   ],
   "note": ""
  },
  {
   "property": "C132",
   "status": "proved",
   "theorems": [
    "C132_text",
    "C132_show"
   ],
   "note": ""
  }
 ]
}