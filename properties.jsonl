{"id": "C01", "title": "GSM 03.38 codec round-trip", "statement": "If text.encode('gsm0338') succeeds, decoding the result with the same codec returns exactly the original text.", "quantifier": "every unicode text (any length) the strict codec accepts", "why_tests_cant": "texts are unbounded sequences over ~137 symbols with one- and two-septet encodings; tests sample single characters", "anchors": ["messaging/sms/gsm0338.py:encode", "messaging/sms/gsm0338.py:decode"]}
{"id": "C02", "title": "is_gsm_text decides the GSM alphabet", "statement": "is_gsm_text(text) is True exactly when every character of the text is in the GSM 03.38 default alphabet or its extension table; strict encode raises UnicodeError exactly otherwise.", "quantifier": "every text, str or unicode, over all code points", "why_tests_cant": "must hold for every code point and every position in every text", "anchors": ["messaging/sms/gsm0338.py:is_gsm_text", "messaging/sms/gsm0338.py:encode"]}
{"id": "C03", "title": "GSM decode is total on septets, and re-encoding is exact on clean input", "statement": "Decoding any sequence of septets (values 0..127) with the strict codec succeeds; re-encoding the decoded text gives back the same septets exactly when every escape septet is followed by an assigned extension code.", "quantifier": "every septet sequence", "why_tests_cant": "sequences are unbounded; escapes interact with position", "anchors": ["messaging/sms/gsm0338.py:decode", "messaging/sms/gsm0338.py:encode"]}
{"id": "C04", "title": "GSM encode in replace and ignore modes", "statement": "encode(text,'replace') and encode(text,'ignore') never fail; each GSM character is encoded as in strict mode, each other character becomes exactly one substitute septet (replace) or nothing (ignore).", "quantifier": "every unicode text", "why_tests_cant": "every mixture of encodable and unencodable characters", "anchors": ["messaging/sms/gsm0338.py:encode", "messaging/sms/gsm0338.py:def_replace_encode_dict"]}
{"id": "C05", "title": "Septet packing is the 3GPP bit packing", "statement": "The 7-bit packing of a septet string is the unique octet string of ceil(7n/8) octets whose little-endian bit stream is the concatenation of the septets padded with zeros, preceded by the septet count.", "quantifier": "every septet string up to 255 septets", "why_tests_cant": "bit-level function of unbounded strings; boundary cases recur every 8 septets", "anchors": ["messaging/utils.py:pack_8bits_to_7bits"]}
{"id": "C06", "title": "Septet unpacking inverts packing", "statement": "Unpacking the packed octets and cutting to the septet count returns the original septets for every message of up to 160 septets.", "quantifier": "every septet string of length 0..160", "why_tests_cant": "128^160 strings", "anchors": ["messaging/utils.py:pack_8bits_to_7bits", "messaging/utils.py:unpack_msg", "messaging/utils.py:unpack_msg2"]}
{"id": "C07", "title": "Unpacking yields septets only", "statement": "unpack_msg/unpack_msg2 on any octets yield only values 0..127 and agree with each other on the hex form of the same octets.", "quantifier": "every octet string", "why_tests_cant": "unbounded inputs", "anchors": ["messaging/utils.py:unpack_msg", "messaging/utils.py:unpack_msg2"]}
{"id": "C08", "title": "Relative validity rounds down", "statement": "For every timedelta between 5 minutes and 63 weeks the relative validity octet is in 0..255 and denotes the largest validity period of GSM 03.40 that does not exceed the requested one.", "quantifier": "every timedelta in range, at microsecond resolution", "why_tests_cant": "continuous range with four regimes; tests probe a few points", "anchors": ["messaging/utils.py:timedelta_to_relative_validity"]}
{"id": "C09", "title": "Relative validity rejects out-of-range periods", "statement": "ValueError is raised exactly for timedeltas below 5 minutes or above 63 weeks.", "quantifier": "every timedelta", "why_tests_cant": "boundaries at microsecond resolution", "anchors": ["messaging/utils.py:timedelta_to_relative_validity"]}
{"id": "C10", "title": "Absolute validity denotes the given local time and offset", "statement": "The seven octets produced for an absolute validity, read as swapped BCD per GSM 03.40, give back the date's two-digit year, month, day, hour, minute, second and the UTC offset truncated toward zero to quarter hours, for every UTC offset smaller than 20 hours in magnitude.", "quantifier": "every datetime from year 1900 with any UTC offset", "why_tests_cant": "all dates times all offsets", "anchors": ["messaging/utils.py:datetime_to_absolute_validity"]}
{"id": "C11", "title": "FixedOffset.from_timezone denotes the time zone string", "statement": "FixedOffset.from_timezone('+hhmm'/'-hhmm').utcoffset() is hh hours mm minutes with the sign of the string.", "quantifier": "every time zone string", "why_tests_cant": "all offsets; the negative branch uses a different representation", "anchors": ["messaging/utils.py:FixedOffset.from_timezone"]}
{"id": "C12", "title": "Destination and SMSC numbers are encoded as semi-octets", "statement": "For every accepted number, the address part of the PDU carries the digit count (octet count for the SMSC), type 0x91 if the number starts with + and 0x81 otherwise, and the digits as swapped semi-octets with an F filler for odd lengths; reading it back gives the number.", "quantifier": "every number matching the accepted syntax", "why_tests_cant": "10^20 numbers, odd and even lengths", "anchors": ["messaging/sms/submit.py:_get_phone_pdu", "messaging/sms/submit.py:_get_smsc_pdu"]}
{"id": "C13", "title": "Number validation", "statement": "Setting number or csca raises ValueError exactly when the value is non-empty and is not an optional +, 3 to 20 digits and an optional final newline; otherwise the value is stored unchanged.", "quantifier": "every string", "why_tests_cant": "arbitrary strings", "anchors": ["messaging/sms/submit.py:_set_number", "messaging/sms/submit.py:_set_csca", "messaging/sms/submit.py:VALID_NUMBER"]}
{"id": "C14", "title": "Decoded numbers invert encoded numbers", "statement": "swap_number applied to the semi-octet hex of a number's digits returns the digits.", "quantifier": "every digit string", "why_tests_cant": "unbounded digit strings of both parities", "anchors": ["messaging/utils.py:swap_number", "messaging/utils.py:swap", "messaging/utils.py:encode_bytes"]}
{"id": "C15", "title": "Single versus multipart threshold", "statement": "to_pdu returns exactly one PDU when the message fits (160 septets, 140 octets, 70 UCS-2 units) and at least two otherwise.", "quantifier": "every text and coding", "why_tests_cant": "lengths around the thresholds combine with escapes", "anchors": ["messaging/sms/submit.py:_get_msg_pdu", "messaging/sms/submit.py:_split_sms_message"]}
{"id": "C16", "title": "Multipart splitting is a partition", "statement": "The parts of a multipart message, concatenated in order, are exactly the message; no part is empty; every part fits in the room left by the header (153 septets, 134 octets, 67 units).", "quantifier": "every text in every coding", "why_tests_cant": "unbounded texts; loop with moving window", "anchors": ["messaging/sms/submit.py:_split_sms_message"]}
{"id": "C17", "title": "7-bit parts never split an escape sequence", "statement": "In a 7-bit multipart message each part is itself a complete GSM string: decoding the parts separately and concatenating gives the text.", "quantifier": "every GSM text longer than 160 septets", "why_tests_cant": "position of escapes relative to part boundaries is input dependent", "anchors": ["messaging/sms/submit.py:_split_sms_message"]}
{"id": "C18", "title": "7-bit multipart round-trip through the receiver", "statement": "Each part produced for a 7-bit multipart message, delivered as an SMS-DELIVER with the same user data, decodes with SmsDeliver to the part's text with the right concatenation reference, count and sequence number; concatenating the texts gives the message.", "quantifier": "every GSM text needing 2..255 parts", "why_tests_cant": "all texts; interaction of header, padding bit and packing", "anchors": ["messaging/sms/submit.py:_split_sms_message", "messaging/utils.py:pack_8bits_to_7bits", "messaging/sms/deliver.py:_process_message"]}
{"id": "C19", "title": "UCS-2 multipart round-trip through the receiver", "statement": "Same as the 7-bit case for UCS-2 messages.", "quantifier": "every text of 16-bit units needing 2..255 parts", "why_tests_cant": "all texts", "anchors": ["messaging/sms/submit.py:_split_sms_message", "messaging/utils.py:pack_8bits_to_ucs2", "messaging/sms/deliver.py:_process_message"]}
{"id": "C20", "title": "8-bit multipart round-trip through the receiver", "statement": "Same as the 7-bit case for 8-bit messages.", "quantifier": "every octet text needing 2..255 parts", "why_tests_cant": "all texts", "anchors": ["messaging/sms/submit.py:_split_sms_message", "messaging/utils.py:pack_8bits_to_8bit", "messaging/sms/deliver.py:_process_message"]}
{"id": "C21", "title": "Single part user data round-trip", "statement": "The user data of a single-part message in any coding decodes with SmsDeliver to the original text.", "quantifier": "every text that fits one part, in 7-bit, 8-bit and UCS-2 coding", "why_tests_cant": "all texts", "anchors": ["messaging/sms/submit.py:_get_msg_pdu", "messaging/sms/deliver.py:_process_message"]}
{"id": "C22", "title": "to_pdu emits a well-formed SMS-SUBMIT", "statement": "Every PDU returned by to_pdu parses, per GSM 03.40, into exactly: the SMSC, the validity format, status-report request and header indicator bits, the message reference, the destination, PID, DCS, validity and user data requested.", "quantifier": "every SmsSubmit configuration for which to_pdu succeeds", "why_tests_cant": "product of all options", "anchors": ["messaging/sms/submit.py:to_pdu"]}
{"id": "C23", "title": "Pdu.length is the TPDU octet count", "statement": "length equals the number of octets of the PDU after the SMSC part, as AT+CMGS needs.", "quantifier": "every PDU returned by to_pdu", "why_tests_cant": "all configurations", "anchors": ["messaging/sms/pdu.py:Pdu", "messaging/sms/submit.py:to_pdu"]}
{"id": "C24", "title": "Concatenation bookkeeping", "statement": "In a multipart result cnt is the number of PDUs, seq numbers them 1..cnt, and all parts carry one reference.", "quantifier": "every multipart message", "why_tests_cant": "all part counts", "anchors": ["messaging/sms/submit.py:to_pdu", "messaging/sms/submit.py:_split_sms_message"]}
{"id": "C25", "title": "Reference numbers", "statement": "The n-th reference drawn from a message object is n mod 255; hence any 255 consecutive draws are distinct octets.", "quantifier": "every history of draws", "why_tests_cant": "history property of unbounded length", "anchors": ["messaging/sms/submit.py:_get_rand_id"]}
{"id": "C26", "title": "to_pdu is repeatable", "statement": "Calling to_pdu again on an unchanged single-part message returns the same PDU and changes nothing further.", "quantifier": "every configuration, any number of calls", "why_tests_cant": "histories of calls over mutable state", "anchors": ["messaging/sms/submit.py:to_pdu", "messaging/sms/submit.py:_get_tpmessref_pdu"]}
{"id": "C27", "title": "Automatic coding choice follows the text", "statement": "When no coding was requested, to_pdu uses 7-bit coding if the current text is GSM text and UCS-2 otherwise, also after the text attribute was changed.", "quantifier": "every history of text assignments and to_pdu calls", "why_tests_cant": "the choice is cached in mutable state", "anchors": ["messaging/sms/submit.py:_get_msg_pdu"]}
{"id": "C28", "title": "More than 255 parts is refused", "statement": "A message needing more than 255 parts makes to_pdu raise ValueError, never emit wrong counters.", "quantifier": "every text", "why_tests_cant": "very long texts", "anchors": ["messaging/sms/submit.py:_split_sms_message"]}
{"id": "C29", "title": "Odd-length PDUs", "statement": "With strict=True an odd-length PDU raises ValueError; with strict=False it decodes exactly as the PDU without its last character.", "quantifier": "every odd-length string", "why_tests_cant": "arbitrary strings", "anchors": ["messaging/sms/deliver.py:_set_pdu"]}
{"id": "C30", "title": "SMS-DELIVER decoding is correct", "statement": "For every well-formed SMS-DELIVER (any SMSC, numeric sender, PID, coding, valid time stamp and offset, user data) SmsDeliver returns exactly the SMSC, sender, PID, DCS, coding, text and the time stamp converted to UTC.", "quantifier": "every well-formed SMS-DELIVER PDU", "why_tests_cant": "product of all fields", "anchors": ["messaging/sms/deliver.py:_set_pdu", "messaging/sms/deliver.py:_process_message"]}
{"id": "C31", "title": "Time stamps are converted to UTC", "statement": "The date attribute of a delivered SMS is the local time stamp minus the signed offset of the TP-SCTS octet.", "quantifier": "every valid time stamp, every offset octet", "why_tests_cant": "all dates across day, month and year borders and all offsets", "anchors": ["messaging/sms/deliver.py:_set_pdu"]}
{"id": "C32", "title": "Alphanumeric senders", "statement": "An alphanumeric sender decodes to exactly its text.", "quantifier": "every GSM text of up to 11 septets", "why_tests_cant": "lengths where fill bits look like a septet", "anchors": ["messaging/sms/deliver.py:_set_pdu", "messaging/utils.py:unpack_msg2"]}
{"id": "C33", "title": "User data header parsing", "statement": "Parsing a serialised list of information elements records every element, and the concatenation and port attributes are those of the last such element; unknown elements are skipped.", "quantifier": "every list of information elements", "why_tests_cant": "unbounded lists in any order", "anchors": ["messaging/sms/udh.py:UserDataHeader.from_bytes"]}
{"id": "C34", "title": "Truncated user data headers fail cleanly", "statement": "from_bytes terminates on every octet string and either returns a header or raises IndexError or ValueError.", "quantifier": "every octet string", "why_tests_cant": "arbitrary malformed input", "anchors": ["messaging/sms/udh.py:UserDataHeader.from_bytes"]}
{"id": "C35", "title": "Status reports", "statement": "For every well-formed SMS-STATUS-REPORT SmsDeliver reports the message reference, recipient, service-centre time stamp, discharge time and status, and maps status 0 to SR-OK, 0x30 to SR-STORED and everything else to SR-UNKNOWN.", "quantifier": "every well-formed status report", "why_tests_cant": "product of fields", "anchors": ["messaging/sms/deliver.py:_decode_status_report_pdu"]}
{"id": "C36", "title": "SmsDeliver fails only with ValueError or IndexError or OverflowError", "statement": "Constructing SmsDeliver from any string terminates and either succeeds or raises ValueError, IndexError or OverflowError.", "quantifier": "every string", "why_tests_cant": "arbitrary malformed input", "anchors": ["messaging/sms/deliver.py:_set_pdu", "messaging/utils.py:to_array"]}
{"id": "C37", "title": "Assigning pdu replaces the message", "statement": "After assigning the pdu attribute of an existing SmsDeliver, its attributes are those of a fresh object built from that PDU.", "quantifier": "every history of pdu assignments", "why_tests_cant": "mutable state left from earlier PDUs", "anchors": ["messaging/sms/deliver.py:_set_pdu"]}
{"id": "C38", "title": "Text is bounded by the user data length", "statement": "Octets after the TP-UDL announced user data do not change the decoded text.", "quantifier": "every PDU with trailing octets, in every coding", "why_tests_cant": "arbitrary trailing data", "anchors": ["messaging/sms/deliver.py:_process_message"]}
{"id": "C39", "title": "Data coding scheme", "statement": "The decoded coding is the alphabet GSM 03.38 assigns to the DCS octet.", "quantifier": "all 256 DCS octets", "why_tests_cant": "coding groups are sparse in tests", "anchors": ["messaging/sms/deliver.py:_set_pdu"]}
{"id": "C40", "title": "PreviewIterator behaves as a cursor over a list", "statement": "For every sequence of next, preview and reset_preview calls the results are those of a list with a read position and a look-ahead position: preview never consumes, next returns to the read position, both raise StopIteration exactly past the end.", "quantifier": "every data sequence and every call history", "why_tests_cant": "unbounded histories of interleaved calls", "anchors": ["messaging/mms/iterator.py:PreviewIterator"]}
{"id": "C41", "title": "uintvar round-trip", "statement": "decode_uint_var(encode_uint_var(n)) = n for every non-negative integer, consuming exactly the encoding; the encoding is the unique minimal base-128 form.", "quantifier": "every non-negative integer, any following bytes", "why_tests_cant": "unbounded integers", "anchors": ["messaging/mms/wsp_pdu.py:Encoder.encode_uint_var", "messaging/mms/wsp_pdu.py:Decoder.decode_uint_var"]}
{"id": "C42", "title": "Short-integer and value-length round-trip", "statement": "decode inverts encode for short integers 0..127 and value lengths of any size; short-integer encoding fails with EncodeError exactly outside 0..127.", "quantifier": "every integer, any following bytes", "why_tests_cant": "unbounded lengths, boundary at 30/31", "anchors": ["messaging/mms/wsp_pdu.py:Encoder.encode_short_integer", "messaging/mms/wsp_pdu.py:Encoder.encode_value_length", "messaging/mms/wsp_pdu.py:Decoder.decode_value_length"]}
{"id": "C43", "title": "uint8 round-trip", "statement": "decode_uint_8(encode_uint_8(n)) = n for every octet.", "quantifier": "all octets", "why_tests_cant": "untested code", "anchors": ["messaging/mms/wsp_pdu.py:Encoder.encode_uint_8", "messaging/mms/wsp_pdu.py:Decoder.decode_uint_8"]}
{"id": "C44", "title": "Long-integer round-trip", "statement": "decode_long_integer(encode_long_integer(n)) = n for every non-negative int.", "quantifier": "every int", "why_tests_cant": "byte order only matters from 256 up", "anchors": ["messaging/mms/wsp_pdu.py:Encoder.encode_long_integer", "messaging/mms/wsp_pdu.py:Decoder.decode_long_integer"]}
{"id": "C45", "title": "Text-string round-trip", "statement": "decode_text_string(encode_text_string(s)) = s, consuming exactly the encoding, for every string without NUL that does not start with octet 127.", "quantifier": "every such byte string, any following bytes", "why_tests_cant": "unbounded strings", "anchors": ["messaging/mms/wsp_pdu.py:Encoder.encode_text_string", "messaging/mms/wsp_pdu.py:Decoder.decode_text_string"]}
{"id": "C46", "title": "Token-text round-trip", "statement": "decode_token_text(encode_token_text(s)) = s for every non-empty string of characters above 31 that are not separators; encode raises EncodeError when a separator occurs.", "quantifier": "every byte string", "why_tests_cant": "unbounded strings", "anchors": ["messaging/mms/wsp_pdu.py:Encoder.encode_token_text", "messaging/mms/wsp_pdu.py:Decoder.decode_token_text"]}
{"id": "C47", "title": "Version-value round-trip", "statement": "decode_version_value(encode_version_value(v)) = v for every version string 'M.m' with M in 1..7 and m in 0..14; other version strings are encoded as text.", "quantifier": "every version string", "why_tests_cant": "all strings, several encodings", "anchors": ["messaging/mms/wsp_pdu.py:Encoder.encode_version_value", "messaging/mms/wsp_pdu.py:Decoder.decode_version_value"]}
{"id": "C48", "title": "Content types round-trip", "statement": "encode_content_type_value followed by decode_content_type_value returns the media type and parameters.", "quantifier": "every media type string and parameter dictionary", "why_tests_cant": "arbitrary media types and parameters", "anchors": ["messaging/mms/wsp_pdu.py:Encoder.encode_content_type_value", "messaging/mms/wsp_pdu.py:Decoder.decode_content_type_value"]}
{"id": "C49", "title": "Decoders leave the iterator alone on DecodeError", "statement": "Where the documentation says the iterator is not modified when DecodeError is raised, a following next() returns the same byte as before the call.", "quantifier": "every byte sequence and decoder", "why_tests_cant": "arbitrary input at the failure point", "anchors": ["messaging/mms/wsp_pdu.py:Decoder", "messaging/mms/mms_pdu.py:MMSDecoder"]}
{"id": "C50", "title": "MMS header round-trip", "statement": "Encoding a single MMS header (To, Cc, Bcc, Subject, From, Message-ID, Transaction-Id, Response-Text, Message-Type, MMS-Version, Status, application header) and decoding it returns the same name and value and consumes exactly the encoding.", "quantifier": "every header value of the documented type, any following bytes", "why_tests_cant": "arbitrary values", "anchors": ["messaging/mms/mms_pdu.py:MMSEncoder.encode_header", "messaging/mms/mms_pdu.py:MMSDecoder.decode_header"]}
{"id": "C51", "title": "MMS message headers round-trip", "statement": "Decoding an encoded message gives back every header that was set, whatever the dictionary order.", "quantifier": "every set of supported headers in every iteration order", "why_tests_cant": "dictionary order and value combinations", "anchors": ["messaging/mms/mms_pdu.py:MMSEncoder.encode_message_header", "messaging/mms/mms_pdu.py:MMSDecoder.decode_message_header"]}
{"id": "C52", "title": "MMS body round-trip", "statement": "Decoding an encoded message of text slides gives back the SMIL part and every slide text, in order, with content types.", "quantifier": "every list of text slides, any SMIL rendering", "why_tests_cant": "unbounded slide lists", "anchors": ["messaging/mms/mms_pdu.py:MMSEncoder.encode_message_body", "messaging/mms/mms_pdu.py:MMSDecoder.decode_message_body"]}
{"id": "C53", "title": "Added data parts are transmitted", "statement": "Every data part added with add_data_part is present in the encoded message.", "quantifier": "every message with data parts", "why_tests_cant": "untested path", "anchors": ["messaging/mms/mms_pdu.py:MMSEncoder.encode_message_body", "messaging/mms/message.py:MMSMessage.add_data_part"]}
{"id": "C54", "title": "encode is repeatable", "statement": "Encoding the same message twice gives the same bytes and leaves the message's headers unchanged.", "quantifier": "every message", "why_tests_cant": "mutation of shared dictionaries", "anchors": ["messaging/mms/mms_pdu.py:MMSEncoder.encode_message_header"]}
{"id": "C55", "title": "A send request stays a send request when it has a recipient", "statement": "An m-send-req with at least one of To, Cc, Bcc is encoded as m-send-req; without a recipient it becomes m-retrieve-conf.", "quantifier": "every message", "why_tests_cant": "header combinations", "anchors": ["messaging/mms/mms_pdu.py:MMSEncoder.encode_message_header"]}
{"id": "C56", "title": "Part headers round-trip", "statement": "Headers of a message part (such as Content-Location of an image) survive encoding and decoding.", "quantifier": "every part header", "why_tests_cant": "interplay of two header tables", "anchors": ["messaging/mms/mms_pdu.py:MMSEncoder.encode_message_body", "messaging/mms/mms_pdu.py:MMSDecoder.decode_header"]}
{"id": "C57", "title": "MMS decoding terminates", "statement": "from_data terminates on every byte sequence and returns a message or raises StopIteration, DecodeError, RuntimeError, AttributeError or OverflowError.", "quantifier": "every byte sequence", "why_tests_cant": "arbitrary malformed input", "anchors": ["messaging/mms/mms_pdu.py:MMSDecoder.decode_data"]}
{"id": "C58", "title": "Decoded headers come from the data", "statement": "Every header of a decoded message was present in the decoded bytes.", "quantifier": "every byte sequence", "why_tests_cant": "defaults hide missing headers", "anchors": ["messaging/mms/mms_pdu.py:MMSDecoder.decode_message_header", "messaging/mms/message.py:MMSMessage.__init__"]}
{"id": "C59", "title": "DataPart length agrees with its data", "statement": "len(part) is the number of bytes of part.data.", "quantifier": "every history of loads, reads and file changes", "why_tests_cant": "histories and file-system interleavings", "anchors": ["messaging/mms/message.py:DataPart.__len__", "messaging/mms/message.py:DataPart.data"]}
{"id": "C60", "title": "Slide timing validation", "statement": "add_image, add_audio and add_text raise ValueError exactly when 0 < time_end < time_begin and leave the slide unchanged on error; set_duration accepts exactly positive integers.", "quantifier": "every pair of integers", "why_tests_cant": "all integers", "anchors": ["messaging/mms/message.py:MMSMessagePage"]}
{"id": "C61", "title": "SMIL layout reflects the slides", "statement": "smil() has one par per slide holding exactly that slide's image, text and audio with times clipped to the duration.", "quantifier": "every list of slides", "why_tests_cant": "unbounded slides; shared DOM nodes across iterations", "anchors": ["messaging/mms/message.py:MMSMessage.smil"]}
{"id": "C62", "title": "data_parts lists all parts", "statement": "data_parts of a message with slides returns the SMIL and all slide and attached parts.", "quantifier": "every message", "why_tests_cant": "untested path", "anchors": ["messaging/mms/message.py:MMSMessage.data_parts"]}
{"id": "C63", "title": "WAP push detection and extraction", "statement": "is_a_wap_push_notification is True exactly when the second octet is 6; extract_push_notification decodes exactly the bytes after the header length announced in the third octet.", "quantifier": "every octet string", "why_tests_cant": "arbitrary input", "anchors": ["messaging/sms/wap.py:is_a_wap_push_notification", "messaging/sms/wap.py:extract_push_notification"]}
{"id": "C64", "title": "Version tables grow", "statement": "The header names and parameter numbers known for a WSP encoding version include those of every lower version with the same meaning, and unknown versions raise ValueError.", "quantifier": "all versions and numbers", "why_tests_cant": "table slicing by version", "anchors": ["messaging/mms/wsp_pdu.py:get_header_field_names", "messaging/mms/wsp_pdu.py:get_well_known_parameters"]}
{"id": "C65", "title": "Quality factors", "statement": "decode_q_value inverts the documented encoding of quality factors with up to three decimals.", "quantifier": "all quality factors", "why_tests_cant": "1000 values, one- and two-octet forms", "anchors": ["messaging/mms/wsp_pdu.py:Decoder.decode_q_value"]}
{"id": "C66", "title": "flatten_list flattens", "statement": "flatten_list returns the integers of an arbitrarily nested list in left-to-right order.", "quantifier": "every nested list", "why_tests_cant": "unbounded nesting", "anchors": ["messaging/mms/mms_pdu.py:flatten_list"]}
{"id": "C67", "title": "Status report dates are UTC", "statement": "The date attribute of a status report is its service-centre time stamp converted to UTC, as it is for a delivered SMS.", "quantifier": "every well-formed status report", "why_tests_cant": "every time stamp and all 256 offset octets", "anchors": ["messaging/sms/deliver.py:SmsDeliver._decode_status_report_pdu"]}
{"id": "C68", "title": "Width of port addresses", "statement": "The eight_bits flag of the ports attribute tells whether the ports came from an 8-bit (element 4) or a 16-bit (element 5) port element.", "quantifier": "every port element", "why_tests_cant": "all port values", "anchors": ["messaging/sms/udh.py:UserDataHeader.from_bytes", "messaging/sms/udh.py:PortAddress"]}
{"id": "C69", "title": "Lenient and strict GSM decoding", "statement": "Decoding GSM text with errors='replace' puts a question mark for exactly the codes outside the alphabet, with errors='ignore' drops exactly those codes, and with errors='strict' raises UnicodeError exactly when there is one; every other code and escape sequence is decoded as in GSM 03.38.", "quantifier": "every octet string, every error mode", "why_tests_cant": "arbitrary mixes of valid codes, escapes and invalid codes", "anchors": ["messaging/sms/gsm0338.py:decode"]}
{"id": "C70", "title": "Codec functions report the length consumed", "statement": "The second component returned by the gsm0338 encode and decode functions is the number of input characters or octets consumed, as the codec interface requires.", "quantifier": "every text and octet string", "why_tests_cant": "differs only for texts with escape sequences", "anchors": ["messaging/sms/gsm0338.py:encode", "messaging/sms/gsm0338.py:decode"]}
{"id": "C71", "title": "Saving and loading a message", "statement": "to_file writes exactly the octets encode returns, from_file of that path gives what from_data gives for those octets, and no other file changes.", "quantifier": "every message, target path and file system content", "why_tests_cant": "arbitrary messages whose parts read files, including the target itself", "anchors": ["messaging/mms/message.py:MMSMessage.to_file", "messaging/mms/message.py:MMSMessage.from_file", "messaging/mms/mms_pdu.py:MMSDecoder.decode_file"]}
{"id": "C72", "title": "A failed save changes nothing", "statement": "When to_file raises an exception, the file system is as it was before the call.", "quantifier": "every message, target path, file system content and point of failure", "why_tests_cant": "failure points between opening and writing", "anchors": ["messaging/mms/message.py:MMSMessage.to_file"]}
{"id": "C73", "title": "Header fields decode to what they mean", "statement": "Every header field written as the MMS encapsulation standard prescribes, with any of the alternative encodings of its value, is decoded to its name and the value it stands for.", "quantifier": "every field of the grammar: all names, values and alternative encodings", "why_tests_cant": "the standard allows unboundedly many encodings (lengths, charsets, integer widths, texts)", "anchors": ["messaging/mms/mms_pdu.py:MMSDecoder.decode_header", "messaging/mms/mms_pdu.py:MMSDecoder.decode_mms_header"]}
{"id": "C74", "title": "Content types with parameters decode to what they mean", "statement": "A content type written as the WSP standard prescribes is decoded to its media type and exactly the parameters given, the last value winning for a repeated one.", "quantifier": "every content type of the grammar: numbered or textual, with any sequence of parameters", "why_tests_cant": "arbitrary parameter sequences and encodings", "anchors": ["messaging/mms/wsp_pdu.py:Decoder.decode_content_type_value", "messaging/mms/wsp_pdu.py:Decoder.decode_parameter"]}
{"id": "C75", "title": "Standard messages decode to their fields and parts", "statement": "An MMS message written as the standard prescribes is decoded to its fields and its parts, in order, with their content types, headers and data.", "quantifier": "every message of the grammar, with any number of fields and parts", "why_tests_cant": "messages of any size from any other encoder; unit tests hold a dozen captures", "anchors": ["messaging/mms/mms_pdu.py:MMSDecoder.decode_data", "messaging/mms/mms_pdu.py:MMSDecoder.decode_message_header", "messaging/mms/mms_pdu.py:MMSDecoder.decode_message_body"]}
{"id": "C76", "title": "Every recipient survives decoding", "statement": "When a message names several recipients in repeated To, Cc or Bcc fields, all of them can be read from the decoded message.", "quantifier": "every message with repeated fields", "why_tests_cant": "any number of recipients", "anchors": ["messaging/mms/mms_pdu.py:MMSDecoder.decode_message_header", "messaging/mms/message.py:MMSMessage.headers"]}
{"id": "C77", "title": "Messages whose content is not multipart", "statement": "A message whose content type is not a multipart type is decoded to a message with that content.", "quantifier": "every message of the grammar with content that is not multipart", "why_tests_cant": "arbitrary content octets", "anchors": ["messaging/mms/mms_pdu.py:MMSDecoder.decode_message_body"]}
{"id": "C78", "title": "The character set of a text is available", "statement": "Texts sent in different character sets can be told apart after decoding.", "quantifier": "every text field with a character set", "why_tests_cant": "pairs of encodings of arbitrary texts", "anchors": ["messaging/mms/mms_pdu.py:MMSDecoder.decode_encoded_string_value"]}
{"id": "C79", "title": "Encoded header fields follow the standard", "statement": "Every header of a message is written as a field of the MMS standard that means the value of the header, so that other software reads it.", "quantifier": "every header name the encoder knows and every value of the kind it stands for", "why_tests_cant": "unit tests only decode with the project's own decoder; values are unbounded", "anchors": ["messaging/mms/mms_pdu.py:MMSEncoder.encode_header", "messaging/mms/wsp_pdu.py:Encoder"]}
{"id": "C80", "title": "Encoded messages follow the standard", "statement": "Every message that can be built is encoded to a multipart message of the MMS standard: its fields are the headers sent, its entries are the SMIL description and the parts, in order.", "quantifier": "every message, with any number of headers, pages and parts of any content", "why_tests_cant": "messages of unbounded size, read by software outside the project", "anchors": ["messaging/mms/mms_pdu.py:MMSEncoder.encode", "messaging/mms/mms_pdu.py:MMSEncoder.encode_message_header", "messaging/mms/mms_pdu.py:MMSEncoder.encode_message_body", "messaging/mms/wsp_pdu.py:Encoder.encode_content_type_value"]}
{"id": "C81", "title": "MMS notifications are read from the short messages that carry them", "statement": "When a WAP push unit with an MMS notification arrives in one or more short messages, joining the decoded texts gives data that is recognised as a push and read as the notification, with all its fields; it is recognised as an MMS notification exactly when sender and location are given.", "quantifier": "every notification of the grammar, every push header, every way of cutting the unit into short messages with any user data headers", "why_tests_cant": "unbounded notifications and all ways of cutting; unit tests hold four captures", "anchors": ["messaging/sms/wap.py:is_a_wap_push_notification", "messaging/sms/wap.py:extract_push_notification", "messaging/sms/wap.py:is_mms_notification", "messaging/sms/deliver.py:SmsDeliver"]}
{"id": "C82", "title": "Messages are sent in as few parts as possible", "statement": "SmsSubmit.to_pdu never returns more PDUs than are needed: any other way of sending the same text in the same coding, in one message or in concatenated ones, takes at least as many messages.", "quantifier": "every text, coding and message settings, every other way of cutting the text", "why_tests_cant": "quantifies over all alternative cuts of unbounded texts; users pay per part", "anchors": ["messaging/sms/submit.py:SmsSubmit.to_pdu", "messaging/sms/submit.py:SmsSubmit._split_sms_message"]}
{"id": "C83", "title": "MMS data cut short is not taken for a message", "statement": "When MMS data is cut, MMSMessage.from_data refuses it, or at least never returns a message with wrong or only some of the parts; octets after the last part change nothing.", "quantifier": "all octet strings and all their prefixes; every multipart message of the standard and every place to cut it", "why_tests_cant": "relates the decoder's runs on all pairs of inputs of which one is a prefix of the other", "anchors": ["messaging/mms/mms_pdu.py:MMSDecoder.decode_data", "messaging/mms/mms_pdu.py:MMSDecoder.decode_message_header", "messaging/mms/mms_pdu.py:MMSDecoder.decode_message_body", "messaging/mms/wsp_pdu.py:Decoder"]}
{"id": "C84", "title": "The parts of a decoded message are pieces of the data", "statement": "The data of the parts of a decoded message are pieces of the input, in order and not overlapping; a message is not larger than the data it was decoded from, and its number of parts is at most a third of the number of octets.", "quantifier": "all octet strings that decode to a message", "why_tests_cant": "arbitrary, also malicious, input of unbounded size", "anchors": ["messaging/mms/mms_pdu.py:MMSDecoder.decode_data", "messaging/mms/mms_pdu.py:MMSDecoder.decode_message_body"]}
{"id": "C85", "title": "An SMS PDU cut short is not taken for a message", "statement": "SmsDeliver refuses a delivery or status report PDU of which the last octets are missing, or at least never shows other text, sender, date or outcome than the complete PDU says.", "quantifier": "every well-formed SMS-DELIVER and SMS-STATUS-REPORT of 3GPP TS 23.040 and every place to cut it between octets", "why_tests_cant": "all messages, all codings and headers, and all places to cut them", "anchors": ["messaging/sms/deliver.py:SmsDeliver._set_pdu", "messaging/sms/deliver.py:SmsDeliver._process_message", "messaging/sms/deliver.py:SmsDeliver._decode_status_report_pdu", "messaging/utils.py:unpack_msg"]}
{"id": "C86", "title": "A received MMS can be passed on", "statement": "Decoding MMS data with MMSMessage.from_data and encoding the resulting message gives data that decodes to a message with the same headers and the same parts.", "quantifier": "All byte strings that decode to a message whose headers the encoder can send; all iteration orders of the dictionaries; all SMIL renderings.", "why_tests_cant": "The claim composes decoder and encoder over every decodable byte string; a test passes on a few messages, and the failure shows only for messages with parts.", "anchors": ["messaging/mms/message.py:MMSMessage.from_data", "messaging/mms/message.py:MMSMessage.encode", "messaging/mms/mms_pdu.py:MMSDecoder.decode_data", "messaging/mms/mms_pdu.py:MMSEncoder.encode_message_body"]}
{"id": "C87", "title": "Parts of different messages can be told apart", "statement": "When several messages, each sent as several parts by SmsSubmit, arrive with their parts mixed in any order, SmsDeliver reads from every part its text, reference number, number of parts and position such that putting the parts with one reference number in order gives exactly the message sent with it.", "quantifier": "All numbers of messages, all texts in the GSM alphabet or UCS-2, all objects obtained through the API, all orders of arrival, all SMS-DELIVER PDUs with the same user data.", "why_tests_cant": "The messages, their number and the interleavings are unbounded; and whether references of different objects can coincide is a question about all objects.", "anchors": ["messaging/sms/submit.py:SmsSubmit.to_pdu", "messaging/sms/submit.py:SmsSubmit._get_rand_id", "messaging/sms/submit.py:SmsSubmit._split_sms_message", "messaging/sms/deliver.py:SmsDeliver._process_message", "messaging/sms/udh.py:ConcatReference"]}
{"id": "C88", "title": "Encoded bodies announce what they contain", "statement": "The body of every message that encode() encodes announces exactly the number of its entries and, for each entry, the exact lengths of its headers and of its data, and the whole encoding is a sequence of octets; also when headers or content types are such that the decoder would not give them back.", "quantifier": "All messages that encode without an exception: any headers, content types, slides, attached parts, files and dictionary orders; all SMIL texts.", "why_tests_cant": "Headers, content types and data are unbounded, and the lengths cross the boundaries of the variable-length encoding.", "anchors": ["messaging/mms/mms_pdu.py:MMSEncoder.encode", "messaging/mms/mms_pdu.py:MMSEncoder.encode_message_header", "messaging/mms/mms_pdu.py:MMSEncoder.encode_message_body", "messaging/mms/message.py:DataPart.__len__", "messaging/mms/message.py:DataPart.data"]}
{"id": "C89", "title": "Parts of a UCS-2 message hold whole characters", "statement": "When SmsSubmit.to_pdu splits a UCS-2 text, every part is a text of its own: no PDU ends in the middle of a character that takes two 16-bit units.", "quantifier": "every UCS-2 text of several parts, every position of characters beyond the 16-bit range", "why_tests_cant": "depends on the position of a pair relative to every multiple of 67 in an unbounded text", "anchors": ["messaging/sms/submit.py:SmsSubmit._split_sms_message"]}
{"id": "C90", "title": "What the coding cannot represent is refused", "statement": "SmsSubmit.to_pdu returns PDUs only for texts all of whose characters exist in the coding used; otherwise it raises ValueError.", "quantifier": "every message object that is otherwise ready to be sent, every text and coding", "why_tests_cant": "ranges over all texts and message states; tests try a few characters", "anchors": ["messaging/sms/submit.py:SmsSubmit.to_pdu", "messaging/utils.py:pack_8bits_to_ucs2", "messaging/utils.py:pack_8bits_to_8bit", "messaging/sms/gsm0338.py:encode"]}
{"id": "C91", "title": "Parts made from files present the file", "statement": "A data part loaded from a path (by creating it with the path, by from_file on any existing part, or by adding an image or a sound to a slide) has as Content-Location the last component of the path, as Content-Type the type guessed from the name, without parameters, or application/octet-stream when there is no guess, no other header, and as data and length those of the file. A path that is no file raises OSError and leaves the part as it was.", "quantifier": "all paths, all file systems, all answers of the type guesser, all earlier states of the part, all slides and times", "why_tests_cant": "The last component must be right for every path, with any number of slashes anywhere, and everything the part held before must be gone whatever it was.", "anchors": ["messaging/mms/message.py:DataPart.from_file", "messaging/mms/message.py:DataPart.__init__", "messaging/mms/message.py:MMSMessagePage.add_image", "messaging/mms/message.py:MMSMessagePage.add_audio"]}
{"id": "C92", "title": "Slides make a message multipart/related", "statement": "After any sequence of add_page and add_data_part the pages and the attached parts of a message are those added, in order. If a page was added, the content type is application/vnd.wap.multipart.related, with the parameters it had if it was that type before and none otherwise; if none was, the content type is what it was. No other header changes.", "quantifier": "all sequences of additions of any length, all messages with a content type", "why_tests_cant": "Sequences of calls are unbounded and start from any headers.", "anchors": ["messaging/mms/message.py:MMSMessage.add_page", "messaging/mms/message.py:MMSMessage.add_data_part", "messaging/mms/message.py:MMSMessage.content_type"]}
{"id": "C93", "title": "Messages sent can be told apart by their references", "statement": "Different PDUs that a program sends carry different TP-MR message references, so that a status report can be matched to its message.", "quantifier": "every message object, every sequence of assignments and calls on it, new objects", "why_tests_cant": "Needs every history of the object between the calls; a test sends one message.", "anchors": ["messaging/sms/submit.py:SmsSubmit.to_pdu"]}
{"id": "C94", "title": "Encoding leaves the settings alone", "statement": "SmsSubmit.to_pdu, whether it returns or raises, leaves number, csca, klass, validity, request_status, pid, text and rand_id as they were.", "quantifier": "every message object that can be reached by assignments and calls, every outcome", "why_tests_cant": "Every path through to_pdu, including each exception, must leave each attribute.", "anchors": ["messaging/sms/submit.py:SmsSubmit.to_pdu"]}
{"id": "C95", "title": "Encoding again sends the same text", "statement": "A second to_pdu on an object that encoded a message of several parts succeeds and gives the same number of parts with the same text and fields; only the concatenation reference moves to the next one, or stays if rand_id is set.", "quantifier": "every text of more than one part in the GSM and UCS-2 codings, every setting", "why_tests_cant": "Ranges over all texts, settings and reference counters, including the wrap-around.", "anchors": ["messaging/sms/submit.py:SmsSubmit.to_pdu"]}
{"id": "C96", "title": "Notation of the PDU does not matter", "statement": "Two hexadecimal notations of the same octets, in any mixture of letter cases, give the same message or the same exception from SmsDeliver, strict or not; only the pdu attribute keeps the notation.", "quantifier": "all octet strings, well formed or not, and all their notations", "why_tests_cant": "2^n notations of every PDU.", "anchors": ["messaging/sms/deliver.py:SmsDeliver._set_pdu", "messaging/utils.py:to_array"]}
{"id": "C97", "title": "Only messages of a known direction are read", "statement": "SmsDeliver refuses every PDU whose message type is SUBMIT with ValueError; in particular every PDU that SmsSubmit produces.", "quantifier": "all PDUs with TP-MTI 1, all PDUs of all messages that can be encoded", "why_tests_cant": "Ranges over all PDUs and all messages.", "anchors": ["messaging/sms/deliver.py:SmsDeliver._set_pdu", "messaging/utils.py:to_array", "messaging/sms/submit.py:SmsSubmit.to_pdu"]}
{"id": "C98", "title": "Strings that are not hexadecimal are refused", "statement": "SmsDeliver raises for every string that contains a character that is no hexadecimal digit.", "quantifier": "all strings of even length, strict or not", "why_tests_cant": "A stray character can be anywhere in strings of any length.", "anchors": ["messaging/sms/deliver.py:SmsDeliver._set_pdu", "messaging/utils.py:to_array"]}
{"id": "C99", "title": "The SMIL text reads back as the document", "statement": "An XML processor that reads what smil() returns finds one par element per slide with the sources and texts of the slides, whatever characters they contain.", "quantifier": "all messages for which smil() returns, all texts and file names", "why_tests_cant": "Ranges over all texts; only reading the text by the rules of XML shows whether quotes, ampersands, line ends and control characters survive.", "anchors": ["messaging/mms/message.py:MMSMessage.smil"]}
{"id": "C100", "title": "Media are shown when the documentation of add_image, add_text and add_audio says", "statement": "A medium added with time_begin and time_end is described in smil() as shown at exactly those moments of the slide that the documentation promises: from time_begin (from the start if 0 or less) until time_end (until the next slide if 0 or less or beyond the duration).", "quantifier": "all slides, durations, times and moments", "why_tests_cant": "Ranges over all combinations of begin, end, duration and moment.", "anchors": ["messaging/mms/message.py:MMSMessage.smil", "messaging/mms/message.py:MMSMessagePage.add_text", "messaging/mms/message.py:MMSMessagePage.add_image"]}
{"id": "C101", "title": "A SMIL player reads the times in milliseconds as given", "statement": "The durations and times in smil(), read by the rules of SMIL (attribute dur, clock values), are the milliseconds passed to set_duration, add_image, add_text and add_audio.", "quantifier": "all messages with slides, all times", "why_tests_cant": "The tests never read the SMIL by the rules of SMIL; ranges over all times.", "anchors": ["messaging/mms/message.py:MMSMessage.smil"]}
{"id": "C102", "title": "References in the SMIL document lead to their parts", "statement": "Each media element of smil() names, by Content-Location or Content-ID, exactly one of the parts of the slides, namely the one it stands for.", "quantifier": "all slide shows built with add_image, add_audio and add_text", "why_tests_cant": "Ranges over all slide shows; a clash needs two particular files.", "anchors": ["messaging/mms/message.py:MMSMessage.smil", "messaging/mms/message.py:DataPart.from_file", "messaging/mms/message.py:DataPart.set_text"]}
{"id": "C103", "title": "The data dictionary tells what was received", "statement": "SmsDeliver(pdu).data holds text, pid, dcs, csca, number, date and fmt of the received message, the keys ref, cnt and seq just when the message is a part of a longer one (or a status report, with cnt and seq 0), and a dictionary under sr just when the PDU is a status report, so that parts, whole messages and reports can be told apart by it.", "quantifier": "every well-formed SMS-DELIVER and SMS-STATUS-REPORT of 3GPP TS 23.040; for telling reports from messages, every PDU that is accepted", "why_tests_cant": "all PDUs, all codings, headers, senders and times", "anchors": ["messaging/sms/deliver.py:SmsDeliver.data", "messaging/sms/deliver.py:SmsDeliver._set_pdu", "messaging/sms/deliver.py:SmsDeliver._decode_status_report_pdu"]}
{"id": "C104", "title": "The slide show arrives", "statement": "Sending a message with slides and receiving it gives a message whose first part is an application/smil document that every XML reader reads as the slide show of the message: its screen size and, for each slide in order, duration, image, text and sound with their sources and times; the other parts are the parts of the slides in order.", "quantifier": "every message without attached parts whose headers and slide parts can be sent; for the exact condition, all sources and texts of all slides", "why_tests_cant": "all messages, slides, texts, sources, iteration orders, and all readings of the text", "anchors": ["messaging/mms/message.py:MMSMessage.smil", "messaging/mms/message.py:MMSMessage.encode", "messaging/mms/mms_pdu.py:MMSEncoder.encode", "messaging/mms/mms_pdu.py:MMSDecoder.decode_data"]}
{"id": "C105", "title": "A refused PDU leaves the message alone", "statement": "When assigning the pdu attribute of an SmsDeliver object raises an exception, the object shows the same message as before.", "quantifier": "every object whatever its history, every string that is refused", "why_tests_cant": "all previous objects and all refused strings, at every point where decoding can stop", "anchors": ["messaging/sms/deliver.py:SmsDeliver._set_pdu", "messaging/sms/deliver.py:SmsDeliver._process_message", "messaging/sms/deliver.py:SmsDeliver._decode_status_report_pdu"]}
{"id": "C106", "title": "A broken user data header is refused", "statement": "UserDataHeader.from_bytes raises an exception for every octet string that is not a complete list of information elements, each with an identifier, a length and that many octets.", "quantifier": "all octet strings, of any length, complete or cut at any place", "why_tests_cant": "Headers can break off anywhere in an arbitrary list of elements; a test shows single cuts, not that every incomplete header is noticed or which ones are not.", "anchors": ["messaging/sms/udh.py:UserDataHeader.from_bytes"]}
{"id": "C107", "title": "Senders with an asterisk, number sign or letters are shown as written", "statement": "SmsDeliver(pdu).number shows the digits of a numeric sender as 3GPP TS 23.040 writes them: the decimal digits, the asterisk (10), the number sign (11) and the letters a, b, c (12 to 14).", "quantifier": "every well-formed SMS-DELIVER with a numeric sender, every sequence of digits 0 to 14 of any length", "why_tests_cant": "All sequences of digits of all lengths, odd and even, in all messages; a test with a short code shows one number.", "anchors": ["messaging/sms/deliver.py:SmsDeliver._set_pdu", "messaging/utils.py:swap_number", "messaging/utils.py:encode_bytes"]}
{"id": "C108", "title": "What is sent tells what was asked for", "statement": "If two SmsSubmit objects return the same PDU strings from to_pdu, then their text, coding, class, destination, service centre, protocol identifier, status report request and message reference are the same, and so is the validity as far as a PDU can express it: no two different requests are sent alike.", "quantifier": "all pairs of message objects reachable through the API; texts of any length in the GSM alphabet and UCS-2, 8-bit texts of one PDU", "why_tests_cant": "It compares every message with every other one, of any length and number of parts, with any settings.", "anchors": ["messaging/sms/submit.py:SmsSubmit.to_pdu", "messaging/sms/submit.py:SmsSubmit._split_sms_message", "messaging/utils.py:pack_8bits_to_7bits"]}
{"id": "C109", "title": "A failed attempt to encode a multimedia message leaves the message as it was", "statement": "If MMSMessage.encode() raises (because a header value or a part cannot be encoded), the message keeps its headers: the caller can correct the offending value, call encode() again and get what they would have got with the corrected value at once.", "quantifier": "all messages (any headers, values, slides and parts), all contents of the file system, all random numbers, all failures", "why_tests_cant": "the effect depends on which header fails and which headers the message has; tests encode messages that succeed and look at the bytes, not at the object after a failure", "anchors": ["messaging/mms/mms_pdu.py:MMSEncoder.encode", "messaging/mms/mms_pdu.py:MMSEncoder.encode_message_header", "messaging/mms/message.py:MMSMessage.encode"]}
{"id": "C110", "title": "The dump script prints data that text2pcap reads back", "statement": "The text that resources/pydump.py prints for a string, read the way its comment says (text2pcap: lines of a hexadecimal offset and octets of two hexadecimal digits, every offset the number of octets before the line), is that string.", "quantifier": "all strings of octets, of any length", "why_tests_cant": "the script has no tests, and any test runs it on particular data; the last line and offsets of more than six digits depend on the length", "anchors": ["resources/pydump.py:dump loop"]}
{"id": "C111", "title": "Different multimedia messages are not sent alike", "statement": "If two MMSMessage objects are encoded to the same bytes, then they send the same headers, show the same slide show (screen size, durations, sources and times), hold the same parts with the same content and headers in the same order, and have the same attached parts.", "quantifier": "all pairs of messages whose headers and slide parts can be sent, encoded at any times with any file systems and random numbers; any number of slides; up to sys.maxint bytes", "why_tests_cant": "it compares every message with every other one", "anchors": ["messaging/mms/message.py:MMSMessage.encode", "messaging/mms/mms_pdu.py:MMSEncoder.encode", "messaging/mms/mms_pdu.py:MMSEncoder.encode_message_body"]}
{"id": "C112", "title": "Typed parameter values decode to what they mean", "statement": "Decoder.decode_typed_value reads a Typed-value of WSP 8.4.2.4 (a Compact-value: an integer or a URI; or a Text-value: no value, a token or a quoted string) as the number or text it stands for and leaves what follows.", "quantifier": "all integers, URIs, tokens and quoted strings of any length, whatever follows them", "why_tests_cant": "the function has no tests and no caller in the library; whether the alternatives are told apart depends on every possible first octet", "anchors": ["messaging/mms/wsp_pdu.py:Decoder.decode_typed_value", "messaging/mms/wsp_pdu.py:Decoder.decode_compact_value"]}
{"id": "C113", "title": "The class and the validity are checked when assigned", "statement": "Assigning the klass of an SmsSubmit stores it exactly when it is an int from 0 to 3, raises ValueError for any other int and TypeError for any other type; assigning the validity stores None, a timedelta or a datetime and raises TypeError for anything else. On an exception the message is unchanged, otherwise only the assigned attribute changes. No sequence of operations leads to another class.", "quantifier": "every value, every message, every sequence of operations", "why_tests_cant": "unbounded values and operation sequences", "anchors": ["messaging/sms/submit.py:SmsSubmit._set_klass", "messaging/sms/submit.py:SmsSubmit._set_validity"]}
{"id": "C114", "title": "Encoding an MMS refuses exactly what cannot be sent, and says how", "statement": "MMSMessage.encode raises exactly when a header, the content type or one of its parameters, a part, or the description of the slides has one of the listed defects (no encoder for the header, wrong type of value, text that is no octets, separator in a name, missing content type, unreadable file, a sound before any text, ...), and the exception raised belongs to a defect the message has.", "quantifier": "every message: any headers, slides, parts, files and dictionary order", "why_tests_cant": "unbounded combinations of headers, values, parts and slides", "anchors": ["messaging/mms/mms_pdu.py:MMSEncoder.encode", "messaging/mms/mms_pdu.py:MMSEncoder.encode_message_header", "messaging/mms/mms_pdu.py:MMSEncoder.encode_message_body", "messaging/mms/mms_pdu.py:MMSEncoder.encode_header", "messaging/mms/wsp_pdu.py:Encoder.encode_header", "messaging/mms/wsp_pdu.py:Encoder.encode_content_type_value", "messaging/mms/message.py:MMSMessage.smil"]}
{"id": "C115", "title": "Sending an SMS refuses exactly what cannot be sent, and says how", "statement": "SmsSubmit.to_pdu raises exactly when the message has one of the listed defects (no destination, empty destination, protocol id that is no octet, unknown coding, validity too short or too long, date before 1900, text outside the GSM alphabet in 7 bits, unicode text of 128 or more characters in 8 bits, non-ASCII bytes in a text of several parts, characters beyond 16 bits in UCS-2, too many parts), and the exception raised belongs to a defect the message has. In particular a text of n GSM letters is sent exactly when n <= 255*153.", "quantifier": "every SmsSubmit object reached by its constructor, setters and earlier to_pdu calls, with any text and any validity a Python datetime/timedelta can hold", "why_tests_cant": "unbounded texts, attribute values and histories of the object", "anchors": ["messaging/sms/submit.py:SmsSubmit.to_pdu", "messaging/sms/submit.py:SmsSubmit._get_msg_pdu", "messaging/sms/submit.py:SmsSubmit._split_sms_message", "messaging/sms/submit.py:SmsSubmit._get_phone_pdu"]}
{"id": "C116", "title": "SmsDeliver refuses exactly what it cannot read, and says how", "statement": "Constructing an SmsDeliver, or assigning its pdu, raises an exception exactly when the string has one of the listed defects (odd length with strict checking, a pair of characters that is no number, a negative number, octets missing before the user data, a submitted message, a date that does not exist, a broken user data header, half a UCS-2 character), and raises exactly the exception that belongs to the first defect. UserDataHeader.from_bytes likewise.", "quantifier": "every string, strict or not, and every object whatever its history", "why_tests_cant": "unbounded strings; the first defect can be anywhere, and the exception depends on all octets in front of it", "anchors": ["messaging/sms/deliver.py:SmsDeliver._set_pdu", "messaging/sms/deliver.py:SmsDeliver._process_message", "messaging/sms/deliver.py:SmsDeliver._decode_status_report_pdu", "messaging/sms/udh.py:UserDataHeader.from_bytes", "messaging/utils.py:to_array"]}
{"id": "C117", "title": "What the MMS and WSP decoders do with any octets", "statement": "MMSMessage.from_data gives, for every string of octets, the message or the exception that a plain reader over lists gives: fields by number with their values, other headers by number or name, the content type, the number of parts and the parts; including octets outside the standard (unknown message type, status, response status, priority, character set; dates after 9999; lengths beyond the data; numbers without a header). Each decoder of the classes Decoder and MMSDecoder returns the reader's value or raises its exception, and leaves exactly the octets the reader leaves.", "quantifier": "every string of octets of any length; every iterator that is not looking ahead", "why_tests_cant": "the set of inputs is unbounded and most of it is outside the standard; what is left unread after a failure decides what the next decoder sees", "anchors": ["messaging/mms/mms_pdu.py:MMSDecoder.decode_data", "messaging/mms/mms_pdu.py:MMSDecoder.decode_header", "messaging/mms/mms_pdu.py:MMSDecoder.decode_message_body", "messaging/mms/wsp_pdu.py:Decoder"]}
{"id": "C118", "title": "What a data part shows after any sequence of calls", "statement": "After any sequence of from_file, set_data, set_text, assignments to content_type and to single headers, reads of data and len(), and writes or removals of files, starting from DataPart(): each header of the part has the value given by the last call that settles it (from_file and set_data/set_text also remove all other headers; a from_file that raises settles nothing), content_type is the media type of the last such call, data is the last given data, or the content the loaded file had when data was first read (its present content if it was not read, OSError while the file is gone), and len() is the length of the given data or the present size of the loaded file.", "quantifier": "every sequence of calls of any length, every contents of files and guess of types, every header name and value", "why_tests_cant": "the order of calls, writes and reads is unbounded; the cache makes the result depend on when the data was first read", "anchors": ["messaging/mms/message.py:DataPart.from_file", "messaging/mms/message.py:DataPart.set_data", "messaging/mms/message.py:DataPart.set_text", "messaging/mms/message.py:DataPart.content_type", "messaging/mms/message.py:DataPart.data", "messaging/mms/message.py:DataPart.__len__"]}
{"id": "C119", "title": "Parameters in every encoding version", "statement": "Encoder.encode_parameter(name, value, version), for a text or an integer: any version but 1.1 to 1.4 raises ValueError; a name to which the standard has assigned numbers up to that version is sent as the highest of them, followed by the value in the form of that number (text with a final 0, number, one octet, version, media type, the octet 0 for Secure) or the exception of a value not of that form, AttributeError for the numbers whose form the encoder lacks; another name is sent as text, EncodeError if it has a separator, followed by the number or text. Decoder.decode_well_known_parameter(iterator, version) returns the name and type the version has for the number read, DecodeError if it has none.", "quantifier": "every version string, every name, every text and integer of any size; every string of octets for the decoder", "why_tests_cant": "names, texts and integers are unbounded, and the rule that the newest number wins has to hold for every name and version", "anchors": ["messaging/mms/wsp_pdu.py:Encoder.encode_parameter", "messaging/mms/wsp_pdu.py:Encoder.encode_no_value", "messaging/mms/wsp_pdu.py:Decoder.decode_well_known_parameter", "messaging/mms/wsp_pdu.py:get_well_known_parameters"]}
{"id": "C120", "title": "Slides and parts shared between messages", "statement": "Slides are held by reference: after any program of calls creating, filling, changing, adding and encoding slides and messages, encode() of a message returns the octets of the message that received exactly the calls on it, its slides being in the state they have by then. So a slide may be filled after it was added, may be added twice or to several messages, and encoding one message, successfully or not, does not change what another sends, whatever slides or parts the two share.", "quantifier": "every program of calls of any length on any number of slides and messages, every message in any web of shared slides and parts, while the files do not change", "why_tests_cant": "programs are unbounded and interleave arbitrarily, and encoding leaves caches behind in shared parts", "anchors": ["messaging/mms/message.py:MMSMessage.add_page", "messaging/mms/message.py:MMSMessagePage.add_image", "messaging/mms/message.py:MMSMessagePage.add_audio", "messaging/mms/message.py:MMSMessagePage.add_text", "messaging/mms/message.py:MMSMessagePage.set_duration", "messaging/mms/message.py:MMSMessage.add_data_part", "messaging/mms/message.py:MMSMessage.encode", "messaging/mms/mms_pdu.py:MMSEncoder.encode_message_body", "messaging/mms/message.py:DataPart.data"]}
{"id": "C121", "title": "Octets after a multimedia message are ignored", "statement": "When MMSMessage.from_data returns a message with at least one part, it returns the same message for the same data followed by any further octets; likewise from_file. So data cut short that is still taken for a message is taken for one without parts or for the complete message. (Of a message without parts the following octets may be read as fields or parts.)", "quantifier": "every string of octets that is decoded to a message with a part, and every string of octets after it", "why_tests_cant": "both the message and what follows are unbounded, and every decoder has to stop by itself", "anchors": ["messaging/mms/mms_pdu.py:MMSDecoder.decode_data", "messaging/mms/mms_pdu.py:MMSDecoder.decode_message_header", "messaging/mms/mms_pdu.py:MMSDecoder.decode_message_body", "messaging/mms/message.py:MMSMessage.from_data"]}
{"id": "C122", "title": "Everything an SmsDeliver shows is written in its PDU", "statement": "Whatever string is accepted by SmsDeliver, well-formed message or not: its pdu is the string (without an odd last character when checks are not strict), its csca, number, pid, dcs, fmt, date, text, udh, type and sr are those written in the octets: the service centre and numbers digit by digit with all fillers dropped, a name read from its complete septets, the coding by two bits of the data coding scheme, the date in UTC, the text read behind the header from as many septets as announced (or from all the remaining octets in the other codings), and of a status report recipient, dates that exist, state and reference, with whatever is missing at its end left out.", "quantifier": "every string that is accepted, strict or not", "why_tests_cant": "strings are unbounded; the well-formed PDUs that tests use are a vanishing part of what is accepted", "anchors": ["messaging/sms/deliver.py:SmsDeliver._set_pdu", "messaging/sms/deliver.py:SmsDeliver._process_message", "messaging/sms/deliver.py:SmsDeliver._decode_status_report_pdu", "messaging/utils.py:swap_number", "messaging/utils.py:unpack_msg", "messaging/utils.py:unpack_msg2"]}
{"id": "C123", "title": "Every octet that MMSMessage.encode writes", "statement": "Whatever message is encoded, the octets are: the message type, the transaction identifier and the version, the other headers in some order, the content type, the number of entries, the SMIL description behind its 35 octets of headers, and one entry for each part of a slide, with the length of its headers, the length of its data, its content type, its other headers in some order and its data. Each header, parameter and content type is written in one way only: numbered names by their number and all others as text; texts as they are with a zero octet; a sender with an address, or the request to insert it; types, states, versions and sizes by their codes, an unknown message type as m-send-req; media types by number when they have one, except multipart/byteranges, which goes out as text; a content type with parameters behind a length that counts the parameters instead of the octets.", "quantifier": "every message that can be encoded: any headers, parameters, slides, parts, files and order of the dictionaries", "why_tests_cant": "headers, parameters and parts are unbounded in number and value and come in any order; tests compare the octets of a few messages", "anchors": ["messaging/mms/mms_pdu.py:MMSEncoder.encode", "messaging/mms/mms_pdu.py:MMSEncoder.encode_message_header", "messaging/mms/mms_pdu.py:MMSEncoder.encode_message_body", "messaging/mms/mms_pdu.py:MMSEncoder.encode_header", "messaging/mms/wsp_pdu.py:Encoder.encode_header", "messaging/mms/wsp_pdu.py:Encoder.encode_content_type_value", "messaging/mms/wsp_pdu.py:Encoder.encode_parameter"]}
{"id": "C124", "title": "Every character of the PDUs that SmsSubmit.to_pdu returns", "statement": "Whatever message to_pdu accepts, each PDU it returns is, in upper case hexadecimal notation: the service centre (or one zero octet), the first octet with the validity format, the status report request and the header flag, the message reference (the one asked for modulo 256, else the next to be drawn), the number of digits of the destination with its type and digits, the protocol identifier, the data coding scheme, the validity period (the longest relative one that is not longer than asked for, or the date in swapped decimal digits with its offset from UTC in quarters of an hour), the length of the user data and the user data: the packed septets, the characters in two or more digits, or two octets per character. A longer text is cut into parts, each with the concatenation header in front in 7 bits and UCS-2, and without any header but a length three too large in 8 bits. The length given with a PDU is half its digits without the service centre; the parts are numbered from one and carry their count. to_pdu returns these PDUs and no others, and it returns just when the message has none of the defects of C115.", "quantifier": "every message that can be set up through the attributes, any text (length, alphabet, coding), number, validity, class, reference and state of the reference counters", "why_tests_cant": "texts, numbers, dates and the states left by earlier calls are unbounded; tests compare the PDUs of some forty messages", "anchors": ["messaging/sms/submit.py:SmsSubmit.to_pdu", "messaging/sms/submit.py:SmsSubmit._get_msg_pdu", "messaging/sms/submit.py:SmsSubmit._split_sms_message", "messaging/sms/submit.py:SmsSubmit._get_smsc_pdu", "messaging/sms/submit.py:SmsSubmit._get_phone_pdu", "messaging/sms/submit.py:SmsSubmit._get_tpmessref_pdu", "messaging/sms/pdu.py:Pdu", "messaging/utils.py:pack_8bits_to_7bits", "messaging/utils.py:pack_8bits_to_8bit", "messaging/utils.py:pack_8bits_to_ucs2", "messaging/utils.py:datetime_to_absolute_validity", "messaging/utils.py:timedelta_to_relative_validity"]}
{"id": "C125", "title": "The printed form of a user data header tells the header", "statement": "repr() of a user data header shows its elements, the reference, count and number of the part and the ports, each number in decimal notation and None for what is not there. Two parsed headers with the same printed form have the same elements, the same concatenation (reference, count, number and width) and the same ports; the printed form of the header of a status report tells its reference and is that of no parsed header.", "quantifier": "every octet string that is parsed, given as a list or as an array, every reference, every order of the dictionary of elements", "why_tests_cant": "headers are unbounded and the printed forms have to differ for all pairs of them; no test prints a header", "anchors": ["messaging/sms/udh.py:UserDataHeader.__repr__", "messaging/sms/udh.py:ConcatReference.__repr__", "messaging/sms/udh.py:PortAddress.__repr__", "messaging/sms/udh.py:UserDataHeader.from_bytes"]}
{"id": "C126", "title": "What a message sends after any sequence of assignments and conversions is told by the sequence", "statement": "A program creates an SmsSubmit, assigns its attributes in any order and calls to_pdu any number of times in between; some assignments are refused and some calls of to_pdu raise. Every attribute then has the value last given and not refused, or the one at creation. A call of to_pdu fixes the message reference, and fixes the coding once there is a destination and the protocol identifier is an octet, even if it raises afterwards; it draws a number for a message without a reference, and another for the parts of a text that does not fit one PDU, even if the parts are refused. The next call of to_pdu returns exactly the PDUs these values tell, and raises exactly if they say so.", "quantifier": "all numbers and texts at creation, all finite sequences of assignments (of any value, valid or not) and calls of to_pdu, with dates Python can hold", "why_tests_cant": "The result depends on the whole history: values left behind by earlier, possibly failing, calls. Tests run a few short histories; the order and number of calls are unbounded.", "anchors": ["messaging/sms/submit.py:SmsSubmit", "messaging/sms/submit.py:SmsSubmit.to_pdu", "messaging/sms/submit.py:SmsSubmit._get_msg_pdu", "messaging/sms/submit.py:SmsSubmit._get_tpmessref_pdu", "messaging/sms/submit.py:SmsSubmit._get_rand_id"]}
{"id": "C127", "title": "What the headers of a multimedia message are after any sequence of calls is told by the sequence", "statement": "A program creates an MMSMessage, sets and deletes headers, adds slides and parts and calls encode() any number of times in between; some of these raise. Each header then shows the value last given to it unless it was deleted since, except: add_page() makes the content type multipart/related if it is another one; encode(), also when it raises, takes away the message type, transaction identifier and version one after the other as it writes them, up to one that cannot be written, which stays with those after it at the value that was to go out, and takes away their names with X-Mms-. The next encode() writes exactly these headers. So a message that was encoded once and not given a type since goes out as m-retrieve-conf, however it is changed.", "quantifier": "all finite sequences of header assignments and deletions (of any value), add_page, add_data_part, assignments of the screen size and calls of encode, in any state of the files, with any order of the dictionary", "why_tests_cant": "The result depends on everything done before, including what failed; sequences are unbounded, and the tests encode each message once.", "anchors": ["messaging/mms/message.py:MMSMessage", "messaging/mms/message.py:MMSMessage.add_page", "messaging/mms/message.py:MMSMessage.encode", "messaging/mms/mms_pdu.py:MMSEncoder.encode_message_header"]}
{"id": "C128", "title": "What a slide holds after any sequence of calls is told by the last accepted call of each kind", "statement": "A program makes a slide and calls add_image, add_audio, add_text and set_duration on it any number of times in any order; some calls are refused, because the file is missing, the end comes before the beginning or the duration is not positive. The slide then shows the image, plays the sound, shows the text and lasts the time given by the last call of the kind that was accepted, with the times of that call and the file as it was then; without one it has none, and lasts 4000 ms. A refused call, and a call of another kind, leaves everything as it was.", "quantifier": "all finite sequences of the four calls with any arguments, each in any state of the files", "why_tests_cant": "The tests build slides with one or two calls that are accepted; here the sequences, the mixture of refused and accepted calls and the state of the files are unbounded.", "anchors": ["messaging/mms/message.py:MMSMessagePage", "messaging/mms/message.py:MMSMessagePage.add_image", "messaging/mms/message.py:MMSMessagePage.add_audio", "messaging/mms/message.py:MMSMessagePage.add_text", "messaging/mms/message.py:MMSMessagePage.set_duration"]}
{"id": "C129", "title": "What an SmsDeliver shows after any sequence of assigned PDUs is told by the sequence", "statement": "A program makes an SmsDeliver and assigns its pdu attribute any number of strings, some of which are refused with an exception. Each attribute then shows what the last string that has it says, and a string that is refused has everything that stands before its defect: the string itself unless its length is odd under strict checking, service centre, first octet, sender, protocol identifier, coding, date and header. Text, type and report come only from strings that are accepted. What a string does not have stays from the strings before it: so a refused message shows its sender beside the text of another, and a status report without a readable time of submission gives the date of an earlier message as its own.", "quantifier": "all finite sequences of strings, of any characters and lengths, with or without strict checking", "why_tests_cant": "Tests make a new object for every PDU; what is left behind depends on the whole sequence and on where each string breaks off, and both are unbounded.", "anchors": ["messaging/sms/deliver.py:SmsDeliver", "messaging/sms/deliver.py:SmsDeliver._set_pdu", "messaging/sms/deliver.py:SmsDeliver._process_message", "messaging/sms/deliver.py:SmsDeliver._decode_status_report_pdu"]}
{"id": "C130", "title": "What an MMSMessage holds after any sequence of calls is told by the sequence", "statement": "A program makes an MMSMessage and assigns and deletes headers, adds slides (made by add_image, add_audio, add_text and set_duration), attaches parts, sets width and height and calls encode, in any order and any number of times, some of the calls raising. The message then holds the slides that were added while its content type had a first item, in order, the attached parts in order, and the size last set. Of the files on the slides those have been read that some encode came to: an encode reads nothing if a header or the content type cannot be written or a sound stands before any text, and otherwise reads part after part up to the first that cannot be sent. A file is read once: after a successful encode the slides keep the content the files had then, whatever happens to the files, while the length announced follows the file.", "quantifier": "all finite sequences of these calls with any arguments, any contents of the files at each encode and any order of the dictionaries", "why_tests_cant": "Tests encode a message once with files that do not change; what has been read depends on where each earlier encode stopped, and the sequences are unbounded.", "anchors": ["messaging/mms/message.py:MMSMessage", "messaging/mms/message.py:MMSMessage.add_page", "messaging/mms/message.py:MMSMessage.add_data_part", "messaging/mms/message.py:DataPart.data", "messaging/mms/mms_pdu.py:MMSEncoder.encode", "messaging/mms/mms_pdu.py:MMSEncoder.encode_message_body"]}
{"id": "C131", "title": "A message in parts is complete exactly when all its parts have arrived", "statement": "Messages in the GSM alphabet or UCS-2 are sent with SmsSubmit in several parts, with different reference numbers. Of their parts any arrive, in any order, some of them more than once and some not at all, and each is read with SmsDeliver. A receiver that collects the texts by the ref, cnt and seq of data finds a complete message for a reference exactly when every part of the message sent with it has arrived, and its text is then the one sent; a message of which a part is missing is never taken for a complete one.", "quantifier": "all finite sets of such messages, all lists of their parts with any order, repetitions and omissions, all SMS-DELIVER PDUs that carry the parts", "why_tests_cant": "Tests read all parts of one message in order; the ways to lose, repeat and mix parts are unbounded in number.", "anchors": ["messaging/sms/submit.py:SmsSubmit.to_pdu", "messaging/sms/submit.py:SmsSubmit._split_sms_message", "messaging/sms/deliver.py:SmsDeliver.data", "messaging/sms/udh.py:UserDataHeader.from_bytes"]}
{"id": "C132", "title": "Every character of the SMIL text", "statement": "For every message whose parts have their sources and in which every slide with sound has text, smil() returns exactly one text: the document with the layout, one par element per slide and the media of the slide with their sources and times, one line per start, end or empty element, indented by one tab per level, the attributes in the order of their names, and ampersand, less than, greater than and quotation mark in values written as references. So equal slide shows give equal texts, whatever the order in which the attributes were set.", "quantifier": "all messages with any slides, texts, file names, times and sizes", "why_tests_cant": "Tests look at one document; the text depends on unboundedly many slides, names and values.", "anchors": ["messaging/mms/message.py:MMSMessage.smil"]}
