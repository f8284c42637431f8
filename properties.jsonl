{"id": "C01", "title": "Hex text and messages convert back and forth without loss", "statement": "For every message m made of octets, Msg.make_from_str(str(m)) equals m. For every text s of hexadecimal digits of even length, str(Msg.make_from_str(s)) is s in upper case. An odd last digit is dropped, and any text with a non-hexadecimal character raises ValueError.", "quantifier": "every octet sequence of any length; every text of any length", "why_tests_cant": "messages and texts are unbounded; a test covers a handful of strings", "anchors": ["knx_stack/msg.py: Msg.make_from_str, Msg.stringtooctects, Msg.__repr__"]}
{"id": "C02", "title": "Consuming octets, shorts and longs never loses, reorders or invents bytes", "statement": "octect(), short() and long() on a message return the big-endian number formed by its first 1, 2 or 4 octets together with exactly the remaining octets, and raise IndexError exactly when fewer octets are left. Writing any integer v through Octect/Short/Long and reading it back yields v modulo 2^8 / 2^16 / 2^32.", "quantifier": "every message of any length; every integer, negative and oversized ones included", "why_tests_cant": "the claim ranges over all lengths and all integers, including truncation of out-of-range ones", "anchors": ["knx_stack/msg.py: Msg.octect, Msg.short, Msg.long, Octect, Short, Long, Nibbles"]}
{"id": "C03", "title": "The three notations of a group address always agree", "statement": "For every 16-bit number the free-style, main/sub and main/middle/sub notations of a GroupAddress describe the same number, building an address from any in-range notation and reading the same notation returns what was put in, out-of-range components are reduced to their field width without touching the other components, and two addresses are equal exactly when their 16-bit numbers are equal.", "quantifier": "all 65536 addresses and all integer components", "why_tests_cant": "needs all bit patterns and all out-of-range integers", "anchors": ["knx_stack/address.py: Address, GroupAddress, TwoLevelStyle, ThreeLevelStyle"]}
{"id": "C04", "title": "The address table stays sorted and its TSAPs name exactly its addresses", "statement": "After any sequence of constructor, add, remove and individual_address operations, successful or raising, the group addresses are in ascending order, the TSAPs 1..n enumerate them, get_tsap(g) of a listed g is a TSAP whose get_address equals g, get_tsap of the individual address that is not listed is 0, get_tsap of anything else is None, and get_address above n raises IndexError. Among objects of one number those that came first stand first and are removed first; together with the order this leaves one list of objects only.", "quantifier": "every initial table and every finite sequence of operations on it", "why_tests_cant": "the invariant is over unbounded operation histories", "anchors": ["knx_stack/definition/layer/network/address_table.py: AddressTable"]}
{"id": "C05", "title": "The address table never grows past its capacity through add", "statement": "If a table starts with at most max_size addresses then after any operation sequence it still has at most max_size; an add on a full table leaves the table exactly as it was, and raises AddressTableException unless the address is already listed and equals the individual address. The constructor itself does not enforce the limit.", "quantifier": "every initial table within capacity and every finite operation sequence", "why_tests_cant": "capacity is an invariant of unbounded histories and needs the failing paths too", "anchors": ["knx_stack/definition/layer/network/address_table.py: AddressTable.__init__, AddressTable.add"]}
{"id": "C06", "title": "add inserts exactly one occurrence and associate never duplicates", "statement": "A successful add(g) makes the number of entries equal to g grow by exactly one and changes no other entry, even when g is already listed (so a repeated add lists the address twice), the only exception being a g that is listed and equals the individual address. In contrast, associating addresses through the association table never lists an address twice, however often it is associated.", "quantifier": "every table, every address, every history of associate calls", "why_tests_cant": "duplicates appear only for particular histories; the no-duplicate half is an invariant of unbounded histories", "anchors": ["knx_stack/definition/layer/network/address_table.py: AddressTable.add", "knx_stack/definition/layer/transport/association_table.py: AssociationTable.associate"]}
{"id": "C07", "title": "Routing returns exactly the associated ASAPs", "statement": "After any history of associate and disassociate calls that all returned normally, for every address g known to the address table get_asaps_from_address(g) lists every ASAP exactly as many times as it was associated with g minus the times it was disassociated from g, lists no other ASAP, and raises KeyError exactly when no ASAP is associated with g.", "quantifier": "every initial address table, every successful call history, every address, every ASAP", "why_tests_cant": "TSAP numbers shift on every insertion and removal, so correctness depends on the entire history", "anchors": ["knx_stack/definition/layer/transport/association_table.py: AssociationTable.associate, disassociate, get_asaps, get_asaps_from_address, _rebuild_tsap_asaps", "knx_stack/definition/layer/network/address_table.py: AddressTable.get_tsap"]}
{"id": "C08", "title": "Sending uses the addresses in the order they were associated", "statement": "After any history of successful associate calls, get_addresses(get_tsaps(asap)) for an associated ASAP lists, by value, precisely the addresses given to associate for it, in the order they were given, independent of how the address table sorts them; for an ASAP never associated get_tsaps raises KeyError. The objects returned are, in every table, the first that the address table has of each number, or its own address.", "quantifier": "every initial table, every history of associate calls, every ASAP", "why_tests_cant": "the sorted table and shifting TSAPs make this a property of histories", "anchors": ["knx_stack/definition/layer/transport/association_table.py: AssociationTable.get_tsaps, get_addresses, associate"]}
{"id": "C09", "title": "Disassociating one ASAP leaves the others working exactly when the address is not shared", "statement": "disassociate(a,[g]) for a g that only a is associated with, once, removes that route and leaves the ASAPs returned for every other address and the sending addresses of every other ASAP unchanged. When g is shared with another ASAP b, the call also takes g out of the address table: b receives nothing from g any more and encoding a group write for b raises TypeError.", "quantifier": "every table reached by successful calls, every ASAP and address in it", "why_tests_cant": "depends on which other ASAPs share the address, over all tables", "anchors": ["knx_stack/definition/layer/transport/association_table.py: AssociationTable.disassociate"]}
{"id": "C10", "title": "A failing association call is harmless exactly when it carries one address", "statement": "An associate call with a single address that raises leaves the routing tables exactly as they were. With several addresses the ones before the failure stay inserted while the routing map is not rebuilt, so a frame for one group address can be delivered to the ASAP of a different one; likewise a disassociate that raises because the ASAP is not associated with the address has already removed the address.", "quantifier": "every table, ASAP and address list for the harmless half; an explicit witness for the harmful one", "why_tests_cant": "failure paths at every position of an address list of any length", "anchors": ["knx_stack/definition/layer/transport/association_table.py: AssociationTable.associate, disassociate", "knx_stack/definition/layer/network/address_table.py: AddressTable.add"]}
{"id": "C11", "title": "The suggested free ASAP number is free when ASAPs were introduced in ascending order", "statement": "If the ASAPs of the table were first associated in strictly ascending order of their values then get_free_asap_value returns a non-negative value no ASAP of the table has, and it is the least such value. When they were introduced in another order it can return a value already in use. After any calls, returning or raising, the ASAP objects of the table are those of the calls that brought their numbers in, in that order, whatever names later calls gave, and lookups answer with these objects only.", "quantifier": "every association table of any size with ascending introduction order; an explicit witness otherwise", "why_tests_cant": "needs all tables, of any size", "anchors": ["knx_stack/definition/layer/transport/association_table.py: AssociationTable.get_free_asap_value"]}
{"id": "C12", "title": "The group object table is a map from ASAP values to datapoint types", "statement": "After any history of associate and disassociate calls on the group object table, the type used for an ASAP is the one of the last associate for an ASAP of equal value not followed by a disassociate of it, names of ASAPs play no role in the lookup, and disassociate raises KeyError exactly when the ASAP is absent, leaving the table unchanged. The entries stand in the order in which their numbers came in, each with the ASAP object of the call that brought it in, whatever names later calls gave.", "quantifier": "every operation history of any length, every ASAP", "why_tests_cant": "histories are unbounded", "anchors": ["knx_stack/definition/layer/application/groupobject_table.py: GroupObjectTable"]}
{"id": "C13", "title": "Group write requests put exactly the right bytes on USB", "statement": "For every state whose tables know the ASAP, encoding a group value write request on the USB medium yields, byte for byte, report id 01, packet info 13, the length of what follows, protocol header 00 08 with the body length, 01 03 0000, message code 11 00, control bytes 96 E0, source 0000, the first address of the ASAP, the NPDU length, and then TPCI/APCI with the value: in the low six bits of the APCI octet for types smaller than an octet, otherwise in 1, 2 or 4 big-endian octets according to the type registered for the ASAP.", "quantifier": "every state, ASAP, address, datapoint type and raw value", "why_tests_cant": "all values, addresses and table contents", "anchors": ["knx_stack/encode/layer/application/a_group_value_write/encode.py: al_encode", "knx_stack/encode/layer/application/a_group_value_write/req.py: encode", "knx_stack/encode/usb_hid: emi_id.encode and the report_body/report_header encoders", "knx_stack/encode/layer/link/l_data/encode.py: ll_encode", "knx_stack/encode/layer/network/n_data_group/encode.py: nl_encode"]}
{"id": "C14", "title": "Group read requests put exactly the right bytes on USB and on KNXnet/IP", "statement": "For every state whose association table knows the ASAP with at least one address, encoding a group value read request yields the fixed frame with the ASAP's first address, TPCI 00 and APCI 00, wrapped for the medium of the state.", "quantifier": "every state, ASAP and address", "why_tests_cant": "all table contents and addresses", "anchors": ["knx_stack/encode/layer/application/a_group_value_read/req.py: encode"]}
{"id": "C15", "title": "Property requests put exactly the right bytes on the wire", "statement": "Encoding a property read or write request yields a frame addressed to the individual address of the state (whatever ASAP is given) with TPCI/APCI 03D5 or 03D7, the object index, property id, element count and start index reduced to 8, 8, 4 and 12 bits in one big-endian 32-bit word, and for a write the octets denoted by the hexadecimal data text.", "quantifier": "every state, every integer header field, every data text whose octets fit the length fields", "why_tests_cant": "all header field values including out-of-range ones, and data of any length", "anchors": ["knx_stack/encode/layer/application/a_property_value_read/req.py: encode", "knx_stack/encode/layer/application/a_property_value_write/req.py: encode", "knx_stack/definition/layer/application/a_property_value.py: PropertyServiceHeader", "knx_stack/encode/layer/network/n_data_individual/req.py: encode"]}
{"id": "C16", "title": "The tunnelling envelope carries the frame intact with correct length, channel and counter", "statement": "On the KNXnet/IP medium every encoded request is 06 10 04 20, a total length equal to the real number of bytes (modulo 65536), 04, the channel id of the state, the local sequence counter, 00, followed by the same cEMI bytes that the USB medium would carry; encoding it changes neither counter.", "quantifier": "every state and every link-layer frame of any length", "why_tests_cant": "all frames and all counters/channels", "anchors": ["knx_stack/encode/knxnet_ip/tunneling/req.py: encode", "knx_stack/encode/knxnet_ip/tunneling/connection_header.py: create", "knx_stack/encode/cemi/ldata/req.py: encode"]}
{"id": "C17", "title": "Connect, connection-state, disconnect and search requests are byte-exact", "statement": "For every pair of IPv4 endpoints the four core requests are encoded as 06 10, their service code, a total length equal to the number of bytes sent, the channel id of the state where the service has one, and one or two endpoint blocks 08 01 address port, plus 04 04 02 00 for connect; a port outside 0..65535 is reduced modulo 65536; they change nothing in the state.", "quantifier": "every dotted-quad address, every integer port, every channel id", "why_tests_cant": "all addresses and ports", "anchors": ["knx_stack/encode/knxnet_ip/core/connect/req.py: encode", "knx_stack/encode/knxnet_ip/core/connectionstate/req.py: encode", "knx_stack/encode/knxnet_ip/core/disconnect/req.py: encode", "knx_stack/encode/knxnet_ip/core/search/req.py: encode", "knx_stack/encode/knxnet_ip/core/hpai.py: create"]}
{"id": "C18", "title": "The length fields of property write frames are right exactly up to a stated size", "statement": "For a property write with k data octets the NPDU length octet equals the number of octets after the TPCI exactly when k <= 250, the USB packet length octet equals the number of octets after it exactly when k <= 232, the KNXnet/IP total length equals the number of bytes exactly when k <= 65510, and above these sizes the fields silently wrap modulo 256 so that the frame no longer describes itself.", "quantifier": "every data length k", "why_tests_cant": "a threshold over all lengths", "anchors": ["knx_stack/encode/layer/network/n_data_individual/req.py: encode", "knx_stack/encode/usb_hid/report_header/packet_info.py: encode", "knx_stack/encode/usb_hid/report_body/usb_protocol_header/body_length.py: encode"]}
{"id": "C19", "title": "Encoding for an ASAP the tables do not know fails without side effects on tables or counters", "statement": "Encoding a group write for an ASAP without datapoint type, or a group read/write for an ASAP never associated, raises KeyError; encoding an object of a class that has no encoder raises KeyError; in all cases tables, counters and channel id are unchanged. For an ASAP that is associated with no address any more, however, a frame without destination, length and TPCI is produced silently.", "quantifier": "every state, every message object", "why_tests_cant": "all states and messages; the malformed frame needs a specific history", "anchors": ["knx_stack/__init__.py: encode_msg, encode_mapping", "knx_stack/state.py: State.get_dpt, get_tsaps, get_addresses", "knx_stack/encode/layer/transport/t_data_group/encode.py: tl_encode", "knx_stack/encode/layer/network/n_data_group/encode.py: nl_encode"]}
{"id": "C20", "title": "Encoding never changes tables, channel or the local counter", "statement": "For every state and every message, encode_msg, whether it returns or raises, leaves the address, association and group object tables, the medium, the channel id, the local counter and the last received frame unchanged; the remote counter changes only when a tunnelling acknowledgement with exactly that counter is encoded, and then advances by one modulo 256.", "quantifier": "every state and every message object of every class", "why_tests_cant": "frame conditions over all states and all messages", "anchors": ["knx_stack/__init__.py: encode_msg", "knx_stack/encode/knxnet_ip/tunneling/ack.py: encode"]}
{"id": "C21", "title": "A group write indication survives encode and decode", "statement": "For every state, encoding a group write indication for an ASAP and decoding the resulting USB bytes, followed by any padding, delivers one write indication to every ASAP that has a datapoint type and is associated with that ASAP's first address, in group-object-table order, and for a receiving type of the same class every named field of the value read back equals the field that was sent.", "quantifier": "every well-formed state, ASAP, datapoint type, value and padding", "why_tests_cant": "all values, tables and paddings", "anchors": ["knx_stack/encode/layer/application/a_group_value_write/ind.py: encode", "knx_stack/decode/layer/application/a_group_value.py: decode", "knx_stack/decode/layer/transport/t_data_group/ind.py: decode"]}
{"id": "C22", "title": "An interface echoing a request is decoded as its confirmation", "statement": "For every state, when the interface returns an encoded group write or read request with the message code changed from request to confirmation and any confirm flag, decode_msg reports a confirmation for every typed ASAP associated with the address, with the same value and with the status given by the confirm flag, on USB and - inside a tunnelling request with the expected counter - on KNXnet/IP.", "quantifier": "every well-formed state, ASAP, value and confirm flag, both media", "why_tests_cant": "all values and tables", "anchors": ["knx_stack/decode/layer/application/a_group_value_write/con.py: decode", "knx_stack/decode/layer/application/a_group_value_read/con.py: decode", "knx_stack/decode/knxnet_ip/tunneling/req.py: decode"]}
{"id": "C23", "title": "Property requests survive the round trip", "statement": "For every state whose individual address is not also a listed group address, the confirmation of an encoded property read or write request decodes to a property confirmation with the same object index, property id, element count, start index (reduced to their widths) and, for a write, exactly the data octets, for data that fits the USB length field. If the individual address is also listed as a group address the confirmation is silently dropped.", "quantifier": "every state, all integer header fields, every data octet sequence within the length limit", "why_tests_cant": "all header values and data sequences", "anchors": ["knx_stack/decode/layer/application/a_property_value.py: decode", "knx_stack/decode/layer/transport/t_data_individual/con.py: decode"]}
{"id": "C24", "title": "Group telegrams reach exactly the associated, typed ASAPs", "statement": "For every association history and every group-addressed telegram (read, response or write; indication or confirmation) for a non-zero group address, decode_msg returns exactly one message per entry of the group object table whose ASAP is associated with that address, in the order of the group object table, each with the same payload put into that entry's datapoint type; telegrams for addresses not listed are discarded with an empty result.", "quantifier": "every history of successful associations, every group object table, every telegram", "why_tests_cant": "fan-out depends on the entire history and on all telegram contents", "anchors": ["knx_stack/decode/layer/transport/t_data_group/ind.py: decode", "knx_stack/decode/layer/transport/t_data_group/con.py: decode", "knx_stack/state.py: State.get_asaps_and_dpts", "knx_stack/decode/layer/application/a_group_value.py: decode"]}
{"id": "C25", "title": "Application services are classified by all ten APCI bits", "statement": "Among the 1024 values of the ten APCI bits of a group telegram exactly 000h is a read, 040h-07Fh is a response and 080h-0BFh is a write; every other value yields an empty result. For individually addressed telegrams exactly 3D5h, 3D6h and 3D7h are property read, response and write.", "quantifier": "all 1024 APCI values, indications and confirmations, all states", "why_tests_cant": "a test does not enumerate all values under all states", "anchors": ["knx_stack/definition/layer/link/ldata.py: L_Data.apci, L_Data.data", "knx_stack/decode/layer/transport/t_data_group/ind.py: decode", "knx_stack/decode/layer/transport/t_data_individual/con.py: decode"]}
{"id": "C26", "title": "Traffic that is not for the application is ignored and leaves the state alone", "statement": "A USB report with another report id, packet type, protocol version, header length, protocol id or EMI id, and a KNXnet/IP datagram with another header size, version or an unknown service, yields an empty result and leaves every part of the state unchanged, whatever bytes follow; a cEMI message with a message code other than data indication/confirmation likewise.", "quantifier": "every byte sequence and every state", "why_tests_cant": "all byte sequences of all lengths", "anchors": ["knx_stack/decode/usb_hid/report_header/report_identifier.py: decode", "knx_stack/decode/usb_hid/report_header/packet_info.py: decode", "knx_stack/decode/knxnet_ip/header.py: decode", "knx_stack/decode/cemi/msg_code.py: decode"]}
{"id": "C27", "title": "Padding after a USB report never changes its meaning", "statement": "If a USB report contains at least as many octets as its packet length octet announces, then appending any octets to it changes neither the result of decode_msg nor the resulting state; octets beyond the body length inside the packet are ignored too.", "quantifier": "every report, every padding, every state", "why_tests_cant": "all paddings and all reports", "anchors": ["knx_stack/decode/usb_hid/report_header/packet_info.py: decode", "knx_stack/decode/usb_hid/report_body/usb_protocol_header/body_length.py: decode"]}
{"id": "C28", "title": "Decoding arbitrary bytes can only fail in the listed ways", "statement": "On any octets, with tables present, decode_msg on USB returns or raises IndexError (truncated input), KeyError (only if the destination is listed in the address table but no ASAP is associated with it) or ValueError (only if the first receiving type is a clima type whose operation code is undefined); on KNXnet/IP it may in addition raise TypeError for a connect response without an endpoint block and ValueError for an unknown status code. No other exception is possible, and a state whose listed addresses all have associated ASAPs never yields KeyError.", "quantifier": "every octet sequence, every state", "why_tests_cant": "robustness over all inputs", "anchors": ["knx_stack/__init__.py: decode_msg", "knx_stack/definition/layer/link/ldata.py: L_Data.make_from", "knx_stack/definition/knxnet_ip/msg.py: Msg.HPAI", "knx_stack/datapointtypes.py: DPT.__repr__"]}
{"id": "C29", "title": "What decode_msg returns is a list, except in two identified cases", "statement": "For every state and input on which decode_msg returns, it returns a list, except that on USB a group telegram whose TPCI is not plain group data yields None and on KNXnet/IP a tunnelling acknowledgement yields a pair of a list and the state.", "quantifier": "every state and input", "why_tests_cant": "all inputs", "anchors": ["knx_stack/decode/layer/network/n_data_group/ind.py: decode", "knx_stack/decode/knxnet_ip/tunneling/ack.py: decode"]}
{"id": "C30", "title": "Results do not depend on what was encoded or decoded before", "statement": "The result of decode_msg and of encode_msg depends only on the medium, the tables, the counters, the channel id and the argument: two states that agree on these give the same result and agree on these afterwards, whatever messages were processed earlier.", "quantifier": "every pair of states, every message, every history of calls", "why_tests_cant": "history independence quantifies over all pairs of histories", "anchors": ["knx_stack/state.py: State", "knx_stack/__init__.py: encode_msg, decode_msg"]}
{"id": "C31", "title": "Decoding never changes tables or the remote counter", "statement": "For every state and input, decode_msg, whether it returns or raises, leaves the tables, the medium and the remote counter unchanged; the local counter changes only on a tunnelling acknowledgement carrying exactly it (then advances by one modulo 256); the channel id changes only on a successful connect response (to the given id) or a successful disconnect response (to 0).", "quantifier": "every state and every octet sequence", "why_tests_cant": "frame condition over all inputs", "anchors": ["knx_stack/__init__.py: decode_msg", "knx_stack/decode/knxnet_ip/tunneling/ack.py: decode", "knx_stack/decode/knxnet_ip/core/connect/res.py: decode", "knx_stack/decode/knxnet_ip/core/disconnect/res.py: decode"]}
{"id": "C32", "title": "Which individually addressed telegrams are accepted", "statement": "A property confirmation is reported exactly when its destination equals the individual address of the table and is not also listed as a group address; a property indication is reported exactly when its source (not its destination) equals the individual address of the table, whatever its destination is.", "quantifier": "every state and every individually addressed telegram", "why_tests_cant": "all addresses and tables", "anchors": ["knx_stack/decode/layer/transport/t_data_individual/ind.py: decode", "knx_stack/decode/layer/transport/t_data_individual/con.py: decode"]}
{"id": "C33", "title": "Bus connection and EMI type reports are decoded correctly", "statement": "A device feature info or response report decodes to Disconnected/Connected for feature 3 with octet 0/1 and to cEMI/emi1/emi2 for feature 5 with octet 3/1/2, and to an empty result for every other service, manufacturer code, feature or octet; the state is unchanged.", "quantifier": "every octet sequence", "why_tests_cant": "all octet sequences, including the re-used variable in the service dispatcher", "anchors": ["knx_stack/decode/usb_hid/report_body/usb_protocol_header/bus_access_server_feature/service_identifier.py: decode", "knx_stack/decode/usb_hid/report_body/usb_protocol_header/bus_access_server_feature/device_feature_info/feature_identifier.py: decode"]}
{"id": "C34", "title": "Payloads are read big-endian and cut to the width of the receiving type", "statement": "The raw value a receiving datapoint type gets is the big-endian number formed by all payload octets (or by the APCI octet when there are none) modulo 2^8, 2^16 or 2^32 according to the type; in particular only the last 1, 2 or 4 octets matter.", "quantifier": "payloads of any length, every datapoint type", "why_tests_cant": "payload length is unbounded", "anchors": ["knx_stack/decode/layer/application/a_group_value.py: decode"]}
{"id": "C35", "title": "The tunnelling client delivers every request once and in order", "statement": "For every sequence of events at the tunnelling client (datagrams of any content, sends, reconnects), a tunnelling request is decoded and delivered exactly when its counter equals the number of requests acknowledged since the last connect response modulo 256 and its telegram can be decoded; each delivered request is acknowledged with exactly one datagram with its own counter and the expected counter then advances by one; requests with any other counter are never delivered.", "quantifier": "every event sequence of any length, every datagram content", "why_tests_cant": "a protocol property over unbounded histories and schedules", "anchors": ["knx_stack/client/knxnet_ip.py: Tunneling.datagram_received", "knx_stack/decode/knxnet_ip/tunneling/req.py: decode", "knx_stack/encode/knxnet_ip/tunneling/ack.py: encode"]}
{"id": "C36", "title": "A repeated tunnelling request is acknowledged but not delivered again, except at wrap-around", "statement": "When the counter of a request is one less than the expected counter, decode_msg reports the request without delivering it again and the client acknowledges it, for every expected counter from 1 to 255; when the expected counter is 0 and the repeated request has counter 255 it is instead reported as a sequence error and not acknowledged. Any other counter is reported as a sequence error and not acknowledged.", "quantifier": "all expected and received counters", "why_tests_cant": "needs all counter pairs, including the wrap-around", "anchors": ["knx_stack/decode/knxnet_ip/tunneling/req.py: decode", "knx_stack/client/knxnet_ip.py: Tunneling.datagram_received"]}
{"id": "C37", "title": "Acknowledgements echo the counter of an in-order request only", "statement": "The acknowledgement sent for an in-order request carries that request's counter and the channel id of the state; the acknowledgement sent for a repeated request carries the expected counter instead of the counter of the request being acknowledged.", "quantifier": "every state and counter", "why_tests_cant": "all counters", "anchors": ["knx_stack/encode/knxnet_ip/tunneling/ack.py: encode"]}
{"id": "C38", "title": "Outgoing counters advance exactly on matching acknowledgements", "statement": "For every sequence of events, each tunnelling request sent carries the local counter, which equals its start value plus the number of received acknowledgements that carried exactly the then-current counter, modulo 256; hence two requests sent without a matching acknowledgement in between carry the same counter.", "quantifier": "every event sequence of any length", "why_tests_cant": "a property of unbounded interleavings of sends and acknowledgements", "anchors": ["knx_stack/encode/knxnet_ip/tunneling/req.py: encode", "knx_stack/decode/knxnet_ip/tunneling/ack.py: decode"]}
{"id": "C39", "title": "A new connection resets the expected counter but not the outgoing one", "statement": "After any history, a connect response makes the client expect counter 0 and send a connection-state request with the new channel id, while the outgoing counter keeps its old value.", "quantifier": "every history before the reconnect", "why_tests_cant": "all histories", "anchors": ["knx_stack/client/knxnet_ip.py: Tunneling.datagram_received"]}
{"id": "C40", "title": "The client counts itself connected after any connect response, even a refusal", "statement": "The client's connected flag becomes true exactly when a connect response (with a known status code and an endpoint block) has been received, whether or not its status is success; a refused connection leaves the channel id unchanged.", "quantifier": "every event sequence", "why_tests_cant": "all histories", "anchors": ["knx_stack/client/knxnet_ip.py: Tunneling.datagram_received", "knx_stack/decode/knxnet_ip/core/connect/res.py: decode"]}
{"id": "C41", "title": "A telegram whose decoding raises blocks the tunnel", "statement": "If decoding the telegram of the in-order request raises, no acknowledgement is sent and the expected counter does not advance, so any number of repetitions of that request leave the client exactly where it was and every later request with a following counter is refused.", "quantifier": "every such request and any number of repetitions", "why_tests_cant": "unbounded repetition", "anchors": ["knx_stack/client/knxnet_ip.py: Tunneling.datagram_received", "knx_stack/decode/knxnet_ip/tunneling/req.py: decode"]}
{"id": "C42", "title": "Sequence counters always stay octets", "statement": "From a fresh state, after any sequence of encode, decode and counter assignments with any integers, both sequence counters lie in 0..255, so the octet put on the wire equals the counter.", "quantifier": "every history of API calls", "why_tests_cant": "unbounded histories", "anchors": ["knx_stack/state.py: State.sequence_counter_remote, State.sequence_counter_local"]}
{"id": "C43", "title": "Setting one field of a datapoint value changes nothing else", "statement": "For every datapoint type, every raw value, and every field, assigning any integer to the field makes that field read back as the integer reduced to the field width, keeps every other field, and keeps the raw value within its width.", "quantifier": "all types, all raw values up to 32 bits, all integers", "why_tests_cant": "2^32 raw values times all integers", "anchors": ["knx_stack/datapointtypes.py: bit-field structures of all DPT classes"]}
{"id": "C44", "title": "Named values map one-to-one to codes", "statement": "For every enumerated field, assigning a name and reading the field gives the same name (or, for the single alias automatico_invio_temperatura_abilitato, its canonical name automatico); reading a code without a name raises ValueError, which can happen only for the clima operation codes 9-13 and 15; assigning an unknown name raises and leaves the value unchanged.", "quantifier": "all enumerated fields, all names, all raw values", "why_tests_cant": "all raw values, including undefined codes arriving from the bus", "anchors": ["knx_stack/datapointtypes.py: DPT_Switch.action, DPT_Alarm.Action, DPT_UpDown.direction, DPT_Start.action, DPTVimarScene.command, DPT_SceneControl.command, DPT_Control_Dimming.direction, DPTSetupClima.Funzionamento, DPTInfoClimaReport.funzionamento"]}
{"id": "C45", "title": "2-octet floats decode to the KNX value", "statement": "For every 16-bit raw value with sign bit s, exponent E and 11-bit mantissa m, decode() returns the double that results from computing 0.01*M*2^E with the 12-bit two's complement mantissa M, that is 0.01 times M rounded once to a double and then scaled exactly, within a relative error of 2^-52 of the exact rational M*2^E/100, with the exact sign and with 0 exactly when M = 0.", "quantifier": "all 65536 raw values", "why_tests_cant": "exhaustive over the type and about rounding", "anchors": ["knx_stack/datapointtypes.py: DPT_Float_16.decode, DPT_Float_16.twos_comp"]}
{"id": "C46", "title": "Re-encoding a decoded 2-octet float preserves the value", "statement": "For every 16-bit raw value except F800h, encode(decode()) succeeds, whatever the object held before, and decodes to the very same double, the raw value itself being restored when its exponent is the least possible; F800h decodes to -671088.64, which encode rejects.", "quantifier": "all 65536 raw values", "why_tests_cant": "exhaustive, about floating point rounding in both directions", "anchors": ["knx_stack/datapointtypes.py: DPT_Float_16.encode, DPT_Float_16.decode"]}
{"id": "C47", "title": "Encoding a float as 2 octets truncates to the finest representable step or fails cleanly", "statement": "For every finite double x, let n be the integer part of |x|/0.01 (the double quotient, rounded to two decimals): if n < 2^26 then encode stores the exponent e that is the least with n < 2^(11+e) and the mantissa floor(n/2^e) with the sign of x, so that the stored magnitude is at most n and within 2^e of it (the sign being lost only as described for tiny negative numbers); otherwise it raises and the old value is kept. Consequently every magnitude up to 671088.6399 can be stored and none from 671088.64 on, and what is stored is less than one step below and at most 0.000051 above the magnitude of x (x not negative or at most -0.01).", "quantifier": "every finite double", "why_tests_cant": "2^64 inputs", "anchors": ["knx_stack/datapointtypes.py: DPT_Float_16.encode"]}
{"id": "C48", "title": "Tiny negative numbers encode to -20.48", "statement": "For every negative double x (including -0.0) whose quotient by 0.01, rounded to two decimals, has integer part 0, encode stores raw value 8000h, which decodes to -20.48; for all other encodable doubles the decoded value has the sign of x or is zero.", "quantifier": "every such double", "why_tests_cant": "an interval of doubles", "anchors": ["knx_stack/datapointtypes.py: DPT_Float_16.encode, DPT_Float_16.decode"]}
{"id": "C49", "title": "4-octet floats round-trip", "statement": "For every 32-bit pattern that is not a NaN, decoding it and encoding the result restores the same pattern; encoding any double stores the nearest single (ties to even, overflow to infinity), and encoding is idempotent through decode.", "quantifier": "all non-NaN 32-bit patterns and all doubles", "why_tests_cant": "2^32 patterns and 2^64 doubles", "anchors": ["knx_stack/datapointtypes.py: DPT_Float_32.encode, DPT_Float_32.decode"]}
{"id": "C50", "title": "A value described by name and fields can be rebuilt", "statement": "For every datapoint value whose description exists (the clima values with operation codes 9-13 and 15 have none), except the 2-octet float F800h, building a value with DPT_Factory from the name and dictionary given by Description_Factory yields a value whose description is the same and, for types all of whose bits are described, whose described fields are equal; names that are not attributes of the module raise AttributeError.", "quantifier": "all types and raw values", "why_tests_cant": "all raw values of all types", "anchors": ["knx_stack/datapointtypes.py: DPT_Factory.make, Description_Factory.make"]}
{"id": "C51", "title": "The clima temperature reads back what was set", "statement": "For every clima report, temperatura is the 9-bit temperature field divided by 10, and assigning a value read from any report restores exactly the same nine bits and touches no other field. Any other number stores ten times itself, cut toward zero, modulo 512: from 0 to 51.19 degrees what is read is the number cut to a tenth; outside it is another temperature, without an error. A text is taken when it consists of digits, with single underscores between them at most, and then stores the number its digits give when written ten times over; any other text raises ValueError.", "quantifier": "all raw values, all 512 temperatures, all integers, all doubles up to a million of either sign, all ASCII texts", "why_tests_cant": "floating-point truncation must be right for every value", "anchors": ["knx_stack/datapointtypes.py: DPTInfoClimaReport.temperatura"]}
{"id": "C52", "title": "The tunnelling writer sends nothing before connecting and then sends in order", "statement": "For every event sequence, the writer sends no message before the first connect response (accepting or refusing, see C40); afterwards the messages it has sent are the encodings of a prefix of the message list, in order, each once; if a message cannot be encoded, neither it nor any later message is ever sent.", "quantifier": "every event sequence and message list", "why_tests_cant": "all schedules of writer steps and datagrams", "anchors": ["knx_stack/client/knxnet_ip.py: Tunneling.writer, Tunneling.send"]}
{"id": "C53", "title": "The USB client survives exactly until the first line it cannot decode", "statement": "For every sequence of lines from the daemon, the USB client decodes the lines in order and reports the result of each up to and including the failure of the first line whose decoding or display raises; after it no further line is ever read. A line written by the client is the upper-case hexadecimal text of the encoded message, which parses back to the same octets.", "quantifier": "every sequence of lines", "why_tests_cant": "unbounded input sequences", "anchors": ["knx_stack/client/usbhid.py: Client._knx_read, Client._knx_write, Client._read"]}
{"id": "C54", "title": "Discovery sends one search request and tolerates any search response", "statement": "The discovery client sends on start exactly one search request with its own endpoint, and decoding a search response reports the IPv4 address and port of its first endpoint block for every response of sufficient length, never changing the state; the individual address it reports is taken from the octets at offsets 10-11 after the total length (description length/type and medium/status precede it in a standard response), not from the device block.", "quantifier": "every local endpoint, every response", "why_tests_cant": "all responses", "anchors": ["knx_stack/client/knxnet_ip_discovery.py: Request.connection_made, Listen.datagram_received", "knx_stack/decode/knxnet_ip/core/search/res.py: decode"]}
{"id": "C55", "title": "The daemon never writes outside its packet buffer", "statement": "For every chunk of at most 113 bytes read from a client, the daemon parses at most 56 octets, so every index written in the 56-byte packet buffer is below 56; and for every packet of at most 56 octets the text built for a client fits the 113-byte buffer with its final newline. A chunk consisting only of a newline makes it read one byte before its buffer.", "quantifier": "every chunk, every packet", "why_tests_cant": "memory safety over all inputs", "anchors": ["daemon/usbhid.c: read_from_client, write_to_client"]}
{"id": "C56", "title": "The daemon forwards every bus packet to every registered client exactly once", "statement": "For every history of connections, disconnections and packets, a bus packet is written, as lower-case hexadecimal with a newline, exactly once to each client that currently holds one of the 64 slots and to nobody else; a client that connected when all slots were taken can send but is never sent anything.", "quantifier": "every event history of any length", "why_tests_cant": "unbounded histories", "anchors": ["daemon/usbhid.c: main (select loop), write_to_client"]}
{"id": "C57", "title": "A client line becomes one bus packet, with stale octets after short lines and on bad lines", "statement": "A line of 2k hexadecimal digits makes the daemon write one 56-octet packet whose first k octets are the octets denoted by the line and whose remaining octets are those of the previous content of the shared buffer; a line of odd length, two lines arriving in one read, and the first 113 characters of an overlong line make it write the previous buffer content again; thus what the USB client sends reaches the bus and decodes as sent, because the packet length octet makes the stale octets irrelevant.", "quantifier": "every line and every previous buffer content", "why_tests_cant": "all buffer histories", "anchors": ["daemon/usbhid.c: read_from_client, write_to_knx_cemi, main", "knx_stack/client/usbhid.py: Client._write"]}
{"id": "C58", "title": "Daemon client slots are reused and never shared", "statement": "For every history in which the operating system hands out positive descriptors that are not in use, no two slots hold the same descriptor, a disconnect frees exactly the slot of that client, and a new client takes the first free slot; the number of registered clients never exceeds 64.", "quantifier": "every event history", "why_tests_cant": "unbounded histories", "anchors": ["daemon/usbhid.c: main (select loop)"]}
{"id": "C59", "title": "Transport PDU kinds are classified from the control octets", "statement": "For every received link-layer frame the PDU kind is broadcast, group, tag-group, individual, connected, ack, nack or none as a function of address type, destination and TPCI octet only; connect and disconnect PDUs are never recognised (they are taken for connected data) even though they can be produced by setting the kind.", "quantifier": "all control octets, TPCI octets and destinations", "why_tests_cant": "all combinations", "anchors": ["knx_stack/definition/layer/link/ldata.py: L_Data.nsdu"]}
{"id": "C60", "title": "Connect responses set the channel and report the endpoint", "statement": "A connect response of status 0 with endpoint and data block sets the channel id to the given one and reports the IPv4 address, port and individual address it carries; a response with a known error status reports no individual address and keeps the channel id; an unknown status or a missing endpoint block raises and keeps the channel id.", "quantifier": "every response and state", "why_tests_cant": "all responses", "anchors": ["knx_stack/decode/knxnet_ip/core/connect/res.py: decode", "knx_stack/definition/knxnet_ip/msg.py: Msg.HPAI, Msg.CRD"]}
{"id": "C61", "title": "Every encoded frame consists of octets and survives its text form", "statement": "For every message and every state, if encoding succeeds then every element of the frame is an octet, whatever integers the message carries, its text form has exactly two hexadecimal digits per octet, and parsing the text gives the same frame.", "quantifier": "every message of every kind with arbitrary integer fields, every state", "why_tests_cant": "integer parameters are unbounded and every encoder path has to truncate", "anchors": ["knx_stack/__init__.py: encode_msg", "knx_stack/msg.py: Msg", "knx_stack/encode/layer/"]}
{"id": "C62", "title": "Connect and disconnect requests produce fixed frames", "statement": "For every state with an association table, t_connect and t_disconnect encode to the L_Data request addressed to the own individual address whose TPDU is the single octet 80h resp. 81h, wrapped for the medium of the state, and change only the address type in the state; without a table both raise.", "quantifier": "every state and medium", "why_tests_cant": "all states, all media, all individual addresses", "anchors": ["knx_stack/encode/layer/transport/t_connect/req.py: encode", "knx_stack/encode/layer/transport/t_disconnect/req.py: encode"]}
{"id": "C63", "title": "The float arithmetic of the model is IEEE 754 round-to-nearest-even", "statement": "Multiplication and division of finite doubles, conversion of integers to double and conversions between single and double give the representable number nearest to the exact rational result, ties to even mantissa, infinity exactly beyond the overflow threshold, with the IEEE sign; that number is unique; int() truncates toward zero.", "quantifier": "all finite doubles and singles, all integers", "why_tests_cant": "the claims about 2- and 4-octet floats rest on it; 2^128 pairs of doubles cannot be sampled meaningfully", "anchors": ["knx_stack/datapointtypes.py: DPT_Float_16.decode, DPT_Float_16.encode, DPT_Float_32, DPTInfoClimaReport.temperatura"]}
{"id": "C64", "title": "Telegrams arrive in order and once over a network that loses and repeats datagrams", "statement": "A tunnelling client and a gateway that follows the KNXnet/IP tunnelling specification (one telegram at a time, repeated until acknowledged) exchange datagrams over a network that keeps their order but loses and repeats any of them: at every moment the client has reported exactly the first telegrams of the gateway, each once and in order, and their number differs by at most one from the number the gateway counts as delivered; while nothing is lost each round delivers one telegram.", "quantifier": "every schedule of transmissions, arrivals, losses, repetitions and writer turns, of any length, past the wrap of the counters", "why_tests_cant": "the interleavings of two counters modulo 256 with two lossy queues are unbounded", "anchors": ["knx_stack/client/knxnet_ip.py: Tunneling.datagram_received", "knx_stack/decode/knxnet_ip/tunneling/req.py: decode", "knx_stack/definition/knxnet_ip/state.py: State"]}
{"id": "C65", "title": "A lost acknowledgement blocks the tunnel for good", "statement": "Because a repeated request is acknowledged with the wrong counter: once a request has been taken and its acknowledgement lost, no continuation makes the gateway's count move or delivers another telegram; and such an acknowledgement can make the gateway count a lost telegram as delivered, after which nothing more is delivered either.", "quantifier": "every reachable state of the system with the acknowledgement lost, every continuation", "why_tests_cant": "a statement about all continuations (the tunnel never recovers)", "anchors": ["knx_stack/client/knxnet_ip.py: Tunneling.datagram_received", "knx_stack/decode/knxnet_ip/tunneling/req.py: decode"]}
{"id": "C66", "title": "Messages reach the bus in order; all of them when the writer waits", "statement": "Over the same network what the gateway puts on the bus is, in order and without repetition, a part of what the client's writer has sent; if the writer takes a turn only when everything before has been acknowledged, everything reaches the bus except possibly the last message; two turns without an acknowledgement in between lose the second message even when the network loses nothing.", "quantifier": "every schedule", "why_tests_cant": "the loss depends on the interleaving of writer and acknowledgements", "anchors": ["knx_stack/client/knxnet_ip.py: Tunneling.writer", "knx_stack/encode/knxnet_ip/tunneling/req.py: encode", "knx_stack/decode/knxnet_ip/tunneling/ack.py: decode"]}
{"id": "C67", "title": "After a reconnection nothing more reaches the bus", "statement": "The outgoing counter is not reset by a new connection, while a gateway expects 0 on a new channel: with a counter from 1 to 254 at the connect response, nothing the client sends reaches the bus or is acknowledged in any continuation; with 255 the first message is swallowed although it is acknowledged.", "quantifier": "every history before the connection, every schedule after it", "why_tests_cant": "a statement about all continuations", "anchors": ["knx_stack/client/knxnet_ip.py: Tunneling.connection_made, Tunneling.datagram_received", "knx_stack/definition/knxnet_ip/state.py: State.sequence_counter_local"]}
{"id": "C68", "title": "The daemon's library calls read behind its text buffer", "statement": "read_from_client hands sscanf and fprintf a 113-byte buffer without terminating zero. For every line without white space whose 113 bytes of buffer happen to contain a zero, both stay inside the buffer; for every line of digits without such a zero fprintf reads behind it, and the line of a full packet never leaves room for a zero; 112 blanks and a line end make sscanf read behind the buffer, and the digits it finds there are written to the bus.", "quantifier": "every line, every content of the memory around the buffer", "why_tests_cant": "depends on memory contents that a test does not control", "anchors": ["daemon/usbhid.c: read_from_client"]}
{"id": "C69", "title": "One broken connection ends the daemon for everybody", "statement": "With failing system calls: the daemon lives after a history exactly when no select, accept or read from the device failed, no packet for the device could not be written, and no bus packet arrived while a registered client's connection was broken (SIGPIPE); as long as it lives its state is that of the daemon without failures; a write that merely fails loses that client's line and nobody else's; once a bus packet meets a broken connection nothing is ever written again to anyone.", "quantifier": "every history of events and failures", "why_tests_cant": "unbounded histories with failures at any point", "anchors": ["daemon/usbhid.c: main (select loop), write_to_client, write_to_knx_cemi, read_from_knx_cemi"]}
{"id": "C70", "title": "USB clients and the daemon together deliver group requests to everyone and refuse long frames", "statement": "Whatever the daemon did before: the line of a client's group write or read request puts that frame on the bus; when the interface answers with its confirmation, every registered client is sent it and reports it for exactly its own group objects associated with that address, with tables of its own. A property write of up to 30 octets passes; for every longer one (arriving in two pieces) the daemon sends the previous packet twice instead.", "quantifier": "every daemon history, every pair of tables, every value, padding and status", "why_tests_cant": "composition of encoder, text form, daemon and decoder for all tables and values", "anchors": ["daemon/usbhid.c: main (select loop), read_from_client, write_to_client", "knx_stack/client/usbhid.py: Client._read, Client._write", "knx_stack/__init__.py: encode_msg, decode_msg"]}
{"id": "C71", "title": "An address table shared with the caller misroutes until the next association call", "statement": "The association table keeps the AddressTable object it was given. For every history mixing calls on the association table with direct add, remove and re-addressing calls on that object: after each association call routing is again exactly the balance of associations and disassociations, direct calls counting for nothing; an ASAP sends to exactly its addresses, or raises TypeError when one is missing from the table; between a direct add (remove) and the next association call every listed address behind it is routed to the ASAPs of its successor (predecessor); a new individual address takes over the old one's ASAPs only until the next association call.", "quantifier": "every table, every mixed history of calls of any length", "why_tests_cant": "unbounded histories over two objects aliasing the same table", "anchors": ["knx_stack/definition/layer/transport/association_table.py: AssociationTable", "knx_stack/definition/layer/network/address_table.py: AddressTable"]}
{"id": "C72", "title": "Endpoint addresses given as text", "statement": "A text without null character is accepted as an IP address exactly when it consists of one to four C numerals (decimal, octal, hexadecimal) separated by dots, all but the last of one octet and the last filling the remaining octets, followed by nothing or by white space and anything; the address is then determined and appears in connect and search requests; every other text raises OSError (ValueError with a null character) and leaves the state alone. Every dotted quad denotes its four octets; leading zeros make a number octal.", "quantifier": "every text, every state and port", "why_tests_cant": "all strings", "anchors": ["knx_stack/definition/knxnet_ip/msg.py: Msg.HPAI", "knx_stack/encode/knxnet_ip/core/connect/req.py: encode", "knx_stack/encode/knxnet_ip/core/search/req.py: encode"]}
{"id": "C73", "title": "Text forms of numbers, addresses and tables show exactly what they stand for", "statement": "Octets, 16- and 32-bit numbers show their octets in hexadecimal, integers their unique decimal form, group addresses their octets and their parts in both notations. The text of an address table has for every TSAP k exactly one numbered row, showing the address get_address gives for k, and no other; two address tables have the same text exactly when individual address, capacity and addresses agree in kind and number. The texts of association and group object tables whose ASAP names contain no line end determine ASAP numbers, names, addresses in order and types; with line ends in names they do not.", "quantifier": "every number, address, table and name", "why_tests_cant": "all tables of any size, all names; injectivity relates pairs of tables", "anchors": ["knx_stack/msg.py: Octect, Short, Long", "knx_stack/address.py: Address.__repr__, GroupAddress.__repr__", "knx_stack/definition/layer/network/address_table.py: AddressTable.__repr__", "knx_stack/definition/layer/transport/association_table.py: ASAP.__repr__, AssociationTable.__repr__", "knx_stack/definition/layer/application/groupobject_table.py: GroupObjectTable.__repr__"]}
{"id": "C74", "title": "Tables follow address objects whose numbers are assigned in place", "statement": "Address objects are mutable and stay shared. Assigning a field (free style, or a part in two- or three-level notation) changes exactly the bits of that field. For every history of associate and disassociate calls and such assignments during which different objects have different numbers: a telegram for the number an object has now reaches exactly the ASAPs associated with that object, and a request goes to the numbers the objects the ASAP still holds have now, in the order associated, unless one of them was taken off the address table since (then TypeError) or nothing was ever associated with the ASAP (KeyError). Not kept: the ascending order of the table; routing when two objects come to have one number; sending when two objects had one number from the start.", "quantifier": "every table, every history of calls and assignments of any length, every value assigned", "why_tests_cant": "unbounded histories with aliasing of objects between three containers", "anchors": ["knx_stack/address.py: Address, GroupAddress", "knx_stack/definition/layer/transport/association_table.py: AssociationTable", "knx_stack/definition/layer/network/address_table.py: AddressTable"]}
{"id": "C75", "title": "Disassociating from the table's own address list leaves every second address", "statement": "AddressTable.addresses returns the list itself. associate(asap, table.addresses) does what a copy of the list does and leaves the table alone. disassociate(asap, table.addresses), with all addresses different and associated, returns normally but removes only the first, third, fifth ... address: the others stay listed and telegrams for them still reach the disassociated ASAP; with a copy of the list the table is empty afterwards.", "quantifier": "every table of any size built by any history", "why_tests_cant": "tables of unbounded size; the loop body changes the list being iterated", "anchors": ["knx_stack/definition/layer/network/address_table.py: AddressTable.addresses, AddressTable.remove", "knx_stack/definition/layer/transport/association_table.py: AssociationTable.associate, AssociationTable.disassociate"]}
{"id": "C76", "title": "What one application sends another one hears with its own tables", "statement": "A group read or write request encoded on any state (any medium, any tables), turned by the bus into an indication (any additional information, control octets with the address type kept, source address) and decoded by another state with tables and a medium of its own, is reported as exactly one indication for each of the receiver's group objects associated with the address, in the order of its group object table, the number read as a value of the object's own type; nothing is reported when the address is not listed. For an object of the sender's type every field reads as sent. Not guaranteed: that the types agree.", "quantifier": "every pair of states with tables built by any histories, every request, every indication frame the bus can make of it", "why_tests_cant": "composition of two programs with independent unbounded tables and all frames between them", "anchors": ["knx_stack/encode/layer/application/a_group_value_write/req.py: encode", "knx_stack/encode/layer/application/a_group_value_read/req.py: encode", "knx_stack/decode/layer/application/a_group_value.py: decode", "knx_stack/decode/layer/transport/t_data_group/ind.py: decode"]}
{"id": "C77", "title": "Two tunnelling clients on one bus: requests of one are heard by the other in order, none twice", "statement": "Two clients, each with its gateway and a network that loses and repeats datagrams in any way; the second gateway relays what the first puts on the bus. At every moment the second client has reported the meanings, by its own tables, of a part of the first one's message list, in order and none twice; of a prefix, when the first writer waits for each acknowledgement; of all messages when nothing is lost and every message and telegram gets its round.", "quantifier": "every pair of clients, message list, and run of both systems of any length", "why_tests_cant": "unbounded concurrent executions of two clients over lossy networks", "anchors": ["knx_stack/client/knxnet_ip.py: Tunneling", "knx_stack/decode/knxnet_ip/tunneling/req.py: decode"]}
{"id": "C78", "title": "Exactly which received bytes make decoding fail, and with which exception", "statement": "decode_msg raises IndexError exactly when the bytes end before a field their own earlier fields call for (report, packet and body lengths, message code, telegram, device feature, service body, data block of a successful connect response, the four octets of an accepted property telegram); KeyError exactly for a group service to an address that is listed but associated with no ASAP; ValueError exactly for a status octet without a name in a complete response and for a group service whose first receiver cannot display the value; TypeError exactly for a connect response that ends between status and endpoint; it succeeds in all other cases. A telegram that is complete and whose addresses are not in the tables never raises.", "quantifier": "all octet strings, both media, all tables built by any history, all states", "why_tests_cant": "an equivalence over all inputs, both directions: tests sample inputs and cannot show that no other input fails", "anchors": ["knx_stack/__init__.py: decode_msg", "knx_stack/msg.py: Msg.octect, Msg.short, Msg.long", "knx_stack/decode/usb_hid/report_header/report_identifier.py: decode", "knx_stack/decode/knxnet_ip/header.py: decode", "knx_stack/decode/knxnet_ip/core/connect/res.py: decode"]}
{"id": "C79", "title": "Exactly which telegrams stop a tunnel", "statement": "A telegram stops a tunnelling connection for good exactly when its frame ends too early, when it is a service of a group that is listed but associated with no ASAP, or when its first receiver is a clima object and the operation code has no name: the due request is then neither acknowledged nor delivered nor counted, so no later telegram is ever delivered whatever is repeated or lost. Telegram number n can be delivered in some execution if and only if it and all before it are free of these causes. What the client writes reaches the bus as before (C66).", "quantifier": "all tables built by any history, all sequences of telegrams, all executions of client, gateway and network of any length", "why_tests_cant": "an equivalence about all future executions after one telegram; tests cannot show that a tunnel never recovers, or that nothing else stops it", "anchors": ["knx_stack/decode/knxnet_ip/tunneling/req.py: decode", "knx_stack/client/knxnet_ip.py: Tunneling.datagram_received", "knx_stack/__init__.py: decode_msg"]}
{"id": "C80", "title": "Exactly which lines end the USB reader", "statement": "The reader of the USB client ends at a line exactly when the text without its last character is not hexadecimal, when its octets are among those that make decoding fail (C78; the end of the file is one of them), or when any receiver of a group service, not only the first, cannot display the value. Lines before it are all reported with their own result, independent of what the writer does; no line after it is read.", "quantifier": "all tables built by any history, all lines, all interleavings with the writer", "why_tests_cant": "an equivalence over all lines of text, both directions", "anchors": ["knx_stack/client/usbhid.py: Client._knx_read, Client._read", "knx_stack/__init__.py: decode_msg"]}
{"id": "C81", "title": "Which device the daemon opens, for every command line", "statement": "Every command line reads in exactly one way as words, letters behind a hyphen, long options (unambiguous abbreviations included) with their values and refused items, up to --. The daemon prints its usage exactly when an item asks for it; otherwise it runs on the device named by the last --dev-hidraw (or the default), on port 5555 whatever --port says, and ends with failure when the last item that sets the device is the letter d, whichever devices exist; nothing else on the command line matters.", "quantifier": "all lists of arguments of any length, all sets of devices", "why_tests_cant": "the set of command lines is infinite; tests try a few, and the documented short form -d DEVICE was apparently never tried", "anchors": ["daemon/usbhid.c: main 169-219"]}
{"id": "C82", "title": "The text of a message identifies the message", "statement": "Whatever the order in which Python lists the fields, two messages with a text in common are of the same kind, for the same ASAP number and name, with the same fields and status and with datapoints of one class that read alike in every property; alike messages have the same texts, so nothing else is shown. This holds for all messages whose own texts avoid the separators, which everything the decoder returns does; a property write request with arbitrary data need not. Such a text is the template of the message's kind with its holes filled: numbers in decimal, ASAPs with their name in parentheses, addresses and octets in hexadecimal, and the datapoint as the name of its class with a dictionary of its fields. A message has a text exactly when formatting it does not raise.", "quantifier": "all messages of every kind, all datapoint values, all field orders, all received bytes and states", "why_tests_cant": "the set of pairs of messages is infinite and the field order differs between runs of Python; tests compare a few texts", "anchors": ["knx_stack/datapointtypes.py: Description_Factory.make 45-88, __repr__ 100-102, 700-702, 775-777", "knx_stack/definition/layer/application: __repr__ of the messages", "knx_stack/definition/knxnet_ip: __repr__ of the messages"]}
{"id": "C83", "title": "The discovery listener finds exactly the search responses, whatever else arrives", "statement": "After any sequence of datagrams, understood or not, the next datagram raises exactly the exceptions of a relation that depends on that datagram alone; a device is found exactly when it is a search response of at least eighteen octets, with the content at its place; at most one message is reported, always one of the KNXnet/IP layer. A complete plain telegram in a tunnelling request with counter 0 raises AttributeError, because it is looked up in tables that are None.", "quantifier": "all finite sequences of datagrams of octets, all next datagrams, all exceptions", "why_tests_cant": "sequences and datagrams are unbounded; the doctests listen to nothing but search responses", "anchors": ["knx_stack/client/knxnet_ip_discovery.py: Listen 109-134", "knx_stack/decode/knxnet_ip", "knx_stack/decode/layer/network", "knx_stack/decode/layer/transport/t_data_group", "knx_stack/decode/layer/transport/t_data_individual", "knx_stack/state.py: 155-160"]}
{"id": "C84", "title": "Each read of the daemon is taken for one line, however the text was cut", "statement": "Every delivery from a client, and nothing else, makes one packet on the bus. When every delivery is one line, the lines of all clients reach the bus in order, each at the start of the shared buffer. A line that arrives in two pieces is never put together: cut between two octets, each piece is stored at the start of the buffer and sent; cut between the two digits of an octet, nothing is stored and the packet from before is sent twice.", "quantifier": "all lines, all places to cut them, all histories of any number of clients and bus packets, all scanners that follow the C standard", "why_tests_cant": "TCP may cut a stream anywhere and does so only under load; tests on one machine always see whole lines", "anchors": ["daemon/usbhid.c: read_from_client 130-156, main loop 258-280, read_from_knx_cemi 48-63"]}
{"id": "C85", "title": "The tunnelling client sends four kinds of datagrams and never keeps its connection alive", "statement": "For every event after every history, what the client sends is given: a connect request for a new transport, one connection state request for a connect response, one acknowledgement for a request that is due and means something or was taken last, at most one tunnelling request per turn of the writer, and nothing else. So after the connect response no connection state request is ever sent again. A datagram of another service, such as the gateway's disconnect request, is not answered and changes nothing; after a disconnect response the client goes on sending, on channel 0. A datagram is answered by one datagram at most, which is never longer than it.", "quantifier": "all clients, all message lists, all orderly histories of events, all datagrams", "why_tests_cant": "a gateway drops a silent tunnel after two minutes, longer than any test runs; disconnect requests from a gateway are not in any recorded session", "anchors": ["knx_stack/client/knxnet_ip.py: Tunneling 88-145", "knx_stack/decode/knxnet_ip/header.py: decode 24-45", "knx_stack/decode/knxnet_ip/core/disconnect/res.py: decode 16-28"]}
{"id": "C86", "title": "Each round of the daemon serves every ready descriptor once; the sets hold 1019 clients", "statement": "In every round of the main loop each descriptor that select() reports is handled exactly once, in ascending order: the listening socket, the device, then the clients. The events of any sequence of rounds are possible histories in the sense of C55-C58 and C84. When never more than n clients are connected at a time, all client descriptors lie between 5 and 4+n; so with at most 1019 every bit set or tested lies in the 1024-bit sets, and with 1020 one lies outside.", "quantifier": "all numbers of rounds, all sets of ready descriptors, all data read, all orders of coming and leaving", "why_tests_cant": "which descriptors are ready together depends on timing; a test with a thousand simultaneous clients needs raised process limits", "anchors": ["daemon/usbhid.c: main 170, 212-223, 229-281", "daemon/usbhid.c: FD_SET 251, FD_CLR 269"]}
{"id": "C87", "title": "Three seconds of sleep are enough when a datagram takes less than one and a half", "statement": "Let the network lose nothing (it may repeat) and need at most d for each datagram, and let the gateway answer at once. When 2d < 3 s, everything written has been acknowledged before the writer takes its next turn; so at any time what was written is on the bus, in order and once, except possibly the last message, and when the writer stops the loop the frames on the bus are those of all the messages; one turn more than there are messages stops it. At most one message more than one for each three seconds is written, and the loop stops no earlier than three seconds per message. With d = 1.5 s a message can be swallowed although nothing is lost.", "quantifier": "all messages, telegrams, times and interleavings; any number of datagrams under way; all 2d < 3000 ms", "why_tests_cant": "depends on the times at which datagrams travel in both directions relative to the sleeps; a test sees one timing", "anchors": ["knx_stack/client/knxnet_ip.py: Tunneling.writer 137-145", "knx_stack/encode/knxnet_ip/tunneling/req.py", "knx_stack/decode/knxnet_ip/tunneling/ack.py"]}
{"id": "C88", "title": "The programs of knx_stack/client: the tunnelling one switches the light on and off, the USB one never ends, the discovery one never sends", "statement": "The tables of the example programs are built without an exception. Once a gateway has accepted the tunnelling program, three turns of its writer stop the loop, and with a network that loses nothing and needs less than 1.5 s per datagram exactly two frames are on the bus: 1/7/129 on, 1/7/129 off. The USB program, whatever lines arrive, writes the line for on, the line for off and nothing else; its third turn ends the writer with AttributeError, because the ASAP of its property request is a number, so the loop is never stopped. The discovery program takes its own name as its address: for every name that does not begin with a digit it raises before sending.", "quantifier": "all interleavings, lines and timings; all program names that do not begin with a digit", "why_tests_cant": "the main parts are not imported by any test; the failures depend on what an exception in a task or a callback leaves undone", "anchors": ["knx_stack/client/knxnet_ip.py: lines 166-212", "knx_stack/client/usbhid.py: lines 104-155", "knx_stack/client/knxnet_ip_discovery.py: lines 162-187"]}
{"id": "C89", "title": "However TCP cuts the daemon's text, the USB client reads the packets of the bus in order and once", "statement": "asyncio's readline puts lines together from pieces: in whatever pieces bytes arrive and whenever the reader looks, what it has reported are the results of the first lines, up to the first failure, and of all lines once it has looked often enough. A text of more than 65536 bytes without a line feed ends the reader with ValueError. At the end of the connection the rest counts as a line, loses its last character, and the reader ends with IndexError if that line did not end it; what arrives after the end changes nothing. Together with the daemon: a client that holds one of the 64 places is written one line per bus packet and nothing else, so its reader reports the packets of the bus in order, each once, up to the first failure.", "quantifier": "all byte sequences below 128, all ways to cut them, all interleavings with the writer; all daemon histories", "why_tests_cant": "the pieces in which a stream arrives are chosen by the network; tests feed whole lines", "anchors": ["knx_stack/client/usbhid.py: Client._read 96-98, _knx_read 86-91", "daemon/usbhid.c: main (select loop), write_to_client"]}
{"id": "C90", "title": "What a tunnelling client says a USB client on the same bus reports, once and in order", "statement": "A tunnelling client sends group requests over a network that loses nothing and needs less than 1.5 s per datagram; its gateway puts them on the bus; a USB interface picks each frame up as an indication (any control octets that keep the address type, any source, additional information and padding); the daemon writes it to its clients; TCP cuts the text as it likes. When the writer has stopped and all bytes have arrived and been looked at, a USB client that holds a place and has its own tables has reported for every message, once and in order, exactly the indications for its own group objects. With the tables of the two example programs: light on, then light off.", "quantifier": "all messages and tables, all timings with 2d < 3 s, all telegrams of the gateway, all daemon histories, all cuts of the stream", "why_tests_cant": "involves two clients, a gateway, a bus, an interface, a daemon and two networks at once", "anchors": ["knx_stack/client/knxnet_ip.py: Tunneling", "knx_stack/client/usbhid.py: Client", "daemon/usbhid.c", "knx_stack/encode", "knx_stack/decode"]}
{"id": "C91", "title": "What USB clients say a tunnelling client on the same bus reports, in the order of their lines", "statement": "Any number of USB clients with tables of their own write group requests as lines to one daemon, which puts them on the bus; the gateway of a tunnelling client on that bus makes indications of them (any control octets that keep the address type, any source, additional information) and sends these through a tunnel that may lose, repeat and reorder datagrams. The tunnelling client has then reported, for the first k lines in the order of their delivery, exactly the indications for its own group objects, where k is the number of telegrams it has taken; without losses that is all of them. What one client has written at any moment of its run is such a sequence. With the tables of the two example programs: light on, then light off.", "quantifier": "all clients, tables and messages, all daemon histories in which each delivery is one line, all runs of the tunnel", "why_tests_cant": "involves several clients, a daemon, an interface, a bus, a gateway and two networks at once", "anchors": ["knx_stack/client/usbhid.py: Client", "daemon/usbhid.c", "knx_stack/client/knxnet_ip.py: Tunneling", "knx_stack/encode", "knx_stack/decode"]}
{"id": "C92", "title": "An L_Data object holds what the last assignments say, and its APCI shares bits with the kind of PDU", "statement": "However the properties source, destination, address_type, connected, apci, data and nsdu of an L_Data object are assigned, in any order and with any integers, the object holds exactly the numbers of a simple record: addresses modulo 65536, the address type modulo 2, the ten APCI bits, the six data bits inside them, the flags of the PDU kind. Nothing reaches the first control octet, hop count, frame format and length. Reading back gives what was assigned, except that setting the kind to connect, disconnect, ack or nack overwrites the upper two bits of the APCI.", "quantifier": "all objects made of octets, all finite sequences of assignments with arbitrary integers", "why_tests_cant": "infinitely many sequences; the overlap of fields shows only in certain orders", "anchors": ["knx_stack/definition/layer/link/ldata.py: L_Data"]}
{"id": "C93", "title": "Once accepted, the tunnelling client sends within a second, then every three seconds, until done", "statement": "If the event loop is never more than a given time late, nothing closes the transport and every message can be displayed and encoded, then a client whose connect request is accepted at some time has sent its first message one second later at the latest, each further one three seconds after the one before, and three seconds after the last the writer has ended; the lateness is added once for every sleep. Whatever the lateness, the writer looks for the answer at most once a second, and after n messages at least 3(n-1) seconds have passed since the answer.", "quantifier": "all clients, message lists, delays, and all timed sequences of events", "why_tests_cant": "real time and the scheduling of the event loop; a test waits once for one schedule", "anchors": ["knx_stack/client/knxnet_ip.py: Tunneling.writer"]}
{"id": "C94", "title": "Without heartbeats a standard gateway lets at most 41 messages of a client through", "statement": "A KNXnet/IP gateway closes a channel on which it has had no connection state request for two minutes, says so with a disconnect request and discards what still arrives. The tunnelling client sends one connection state request, after the connect response, and ignores the disconnect request. So, over a network that loses nothing and needs less than 1.5 s, the messages that reach the bus are the first ones, at most 41; the client goes on, its writer ends as usual after all messages, and the rest is lost without an error. A client that is done within the two minutes loses nothing.", "quantifier": "all clients and message lists, all delays below 1.5 s, all timed sequences of events", "why_tests_cant": "two minutes of real time and a gateway that keeps to the standard; the limit depends on sleep times, heartbeat and decoder together", "anchors": ["knx_stack/client/knxnet_ip.py: Tunneling.writer, Tunneling.datagram_received", "knx_stack/decode/knxnet_ip/header.py: decode"]}
{"id": "C95", "title": "Messages that ask for different things are encoded to different bytes", "statement": "Two messages that are encoded to the same bytes, each with its own tables and on whatever medium, ask for the same thing: the same service, the same destination, the same value in the bits that travel, the same property fields and data, the same addresses, ports, channel, counter and status. And messages that ask for the same thing on the same medium, channel and counter have the same bytes. The exception is a group message whose ASAP has lost all its addresses: it asks for nothing but is sent, and with a four-octet type its bytes are those of a switch telegram to an address between 16/0/0 and 16/0/255 that the value determines.", "quantifier": "all pairs of messages, all states", "why_tests_cant": "it relates all pairs of messages and states; the exception needs an emptied ASAP and a particular value", "anchors": ["knx_stack/__init__.py: encode_msg", "knx_stack/encode/layer/transport/t_data_group/req.py: encode", "knx_stack/encode/layer/application/a_group_value_write/encode.py: al_encode", "knx_stack/encode/layer/application/a_property_value_write/req.py: encode"]}
{"id": "C96", "title": "The USB client writes every three seconds and ends three seconds after its last message", "statement": "When the event loop is never more than a given time late, message number k of the USB client is written 3k seconds after the client was made, later by at most that time for every turn; the client stays, reading, until three seconds after its last message, and nothing happens afterwards. With a message that cannot be encoded or displayed it never ends.", "quantifier": "all states and message lists, all timed sequences of events", "why_tests_cant": "it is about real time and about runs that never end", "anchors": ["knx_stack/client/usbhid.py: Client._knx_write, Client._knx_read"]}
{"id": "C97", "title": "Only the order of each ASAP's own associations matters", "statement": "A set of associations that is accepted in one order is accepted in every order in which the calls of each single ASAP keep their sequence, whether they go through the constructor or through associate, and no sequence of encode_msg and decode_msg calls can tell the orders apart. The order in which datapoint types are given is invisible to encoding, and decoding reports the same messages in another order as long as the value can be displayed for every receiver. None of this holds with disassociate calls, with exchanged calls of one ASAP, or for a value that one receiver cannot display.", "quantifier": "all tables, all histories of associations and their reorderings, all later sequences of uses", "why_tests_cant": "it relates all pairs of histories and all later uses; the number of orders grows with the factorial of the calls", "anchors": ["knx_stack/definition/layer/transport/association_table.py: AssociationTable.__init__, associate, disassociate", "knx_stack/definition/layer/network/address_table.py: AddressTable.add", "knx_stack/definition/layer/application/groupobject_table.py: GroupObjectTable.associate", "knx_stack/state.py: State.get_asaps_and_dpts"]}
{"id": "C98", "title": "A client that does not read stops the daemon for everybody", "statement": "With connections that hold only so many bytes, and clients that read when they like: each client reads exactly the lines it is due, in order, without loss or doubling, but for the end of one line while the daemon is writing; the daemon is otherwise the one of C55-C58. A registered client that does not read lets the daemon take from the bus no more packets than that client's connection holds, plus one. Once the daemon waits for that client, it handles no event and writes nothing to the bus or to any client until the client reads. If the clients it is writing to read, it comes back to select; a packet for which all have room goes out without waiting.", "quantifier": "all capacities, all histories of events, of partial takings by the kernel and of reads by the clients", "why_tests_cant": "a test reads from its sockets; how writing and reading interleave is the kernel's choice, and a standstill can only be waited for", "anchors": ["daemon/usbhid.c: write_to_client, main (229-281)"]}
{"id": "C99", "title": "Changing some associations while the program runs leaves the others alone", "statement": "After further associate and disassociate calls and any calls on the group object table, a sequence of encodings and decodings gives the same results as without them, provided each decoded frame carries, if anything, a telegram to an address these calls do not mention and no ASAP of which got another type, and each group message is sent for an ASAP they are not about, none of whose addresses they take away (nor bring back, should it be missing). So a received frame is treated differently only if it carries a telegram to an address concerned. Without the provisos it is false: taking an address from one ASAP silences another, and giving a missing one to a third lets the other send again.", "quantifier": "all tables, all earlier and later histories of accepted calls, all group object tables, all states and task sequences, all octet sequences", "why_tests_cant": "a test tries one change and a few frames; the transport numbers of all addresses shift with every change, and the claim is about every frame and message that is not concerned", "anchors": ["knx_stack/definition/layer/transport/association_table.py: associate, disassociate, _rebuild_tsap_asaps", "knx_stack/definition/layer/application/groupobject_table.py", "knx_stack/state.py: get_tsap, get_asaps_and_dpts, get_addresses", "knx_stack/decode/layer/transport/t_data_group/ind.py", "knx_stack/encode/layer/network/n_data_group/encode.py"]}
{"id": "C100", "title": "Every message, in every state: the bytes that are sent or the exception that is raised", "statement": "encode_msg raises the exception of the first of these complaints that holds, and without complaint returns exactly the bytes meant: the message class has no encoder; an endpoint text contains a null character or denotes no IPv4 address; property data are not hexadecimal; there is no group object table, or it has no type for the ASAP; there is no association table; the ASAP was never associated; one of the addresses it has left is gone from the address table; there is no channel number although one is needed. Addresses left, and addresses gone, are determined by the calls alone: an association appends, a disassociation removes the first occurrence; the address table loses an address when any ASAP is disassociated from it. A group message goes to the first address left, whatever associations and disassociations came before.", "quantifier": "all messages with all field values and texts, all states with or without tables, all tables and all histories of accepted association calls", "why_tests_cant": "a test tries a few messages; here each of the ten encoders is a total function of message, state and history, with the order in which problems are noticed", "anchors": ["knx_stack/__init__.py: encode_msg", "knx_stack/encode/: all modules", "knx_stack/state.py: get_tsaps, get_addresses, get_dpt, individual_address", "knx_stack/definition/layer/transport/association_table.py: get_tsaps, get_addresses, associate, disassociate", "knx_stack/definition/layer/network/address_table.py: get_address, add, remove"]}
{"id": "C101", "title": "Every octet sequence, in every state: the result that is returned", "statement": "decode_msg fails exactly for the reasons and with the exceptions of C78; otherwise its result is the one entry of a table over all USB reports and all KNXnet/IP datagrams: telegrams to listed group addresses give one message per receiving entry of the group object table, in its order; property telegrams from (indication) or to (confirmation) the own address give one message; numbered or control telegrams to group addresses give None on USB and nothing on KNXnet/IP; feature reports give their feature; search, connect, connection state and successful disconnect responses give their fields; a tunnelling request gives itself and, when its counter is due, its telegram; an acknowledgement gives the counter after it; everything else an empty list. In a run of receptions, failing or not, the local counter and the channel are all that earlier octets influence.", "quantifier": "all octet sequences, all runs of them, all states with tables, all histories of accepted association calls, both media", "why_tests_cant": "a test decodes some frames; here no octet sequence is left whose result is not stated", "anchors": ["knx_stack/__init__.py: decode_msg", "knx_stack/decode/: all modules", "knx_stack/state.py: get_tsap, get_asaps_and_dpts, individual_address"]}
{"id": "C102", "title": "Lines of any bytes: which the USB reader takes, and for what", "statement": "bytes.decode() gives a text exactly when the bytes are its UTF-8 form (no surrogates, no overlong forms), else ValueError. make_from_str reads ASCII hexadecimal digits and the decimal digits of every script, two by two, drops one left over, and raises ValueError on anything else. So the USB reader treats a line of such digits like the same line in ASCII, whatever its last character is, and every other line ends it with ValueError and the state as it was; lines without digits of other scripts are taken byte by byte, as C53, C80 and C89 assume.", "quantifier": "all byte sequences, all texts, every set of digits that a Unicode version may define, all states", "why_tests_cant": "tests use ASCII lines; the set of accepted texts is infinite and depends on the Unicode tables", "anchors": ["knx_stack/client/usbhid.py: Client._knx_read, Client._read", "knx_stack/msg.py: Msg.stringtooctects, Msg.make_from_str"]}
{"id": "C103", "title": "Two telegrams are told apart by some application exactly when they differ in what they tell", "statement": "Two reports give the same decoding result in every state whose tables were built by calls, if and only if their telegrams have the same gist: for group telegrams direction, destination, service, the value up to 32 bits and the status of confirmations; for property telegrams direction, the device concerned and the message (or that it ends too early); for the rest whether a list is returned. Through the tunnel the same, with no difference between no list and an empty one. So the sender of a group telegram, priority, repeat flag, hop count, frame type and length octet never matter.", "quantifier": "all pairs of reports and of tunnelling requests carrying telegrams, all tables reachable by calls, all datapoint types", "why_tests_cant": "the claim compares infinitely many pairs of frames in infinitely many applications, and needs an application for every pair that differs", "anchors": ["knx_stack/decode/layer/link/l_data/ind.py: decode", "knx_stack/decode/layer/transport/t_data_group/ind.py: decode", "knx_stack/decode/layer/application/a_group_value.py: decode", "knx_stack/decode/layer/application/a_property_value.py: decode", "knx_stack/decode/knxnet_ip/tunneling/req.py: decode"]}
{"id": "C104", "title": "A conversation is the same on USB and through a KNXnet/IP tunnel", "statement": "For any sequence of bus requests and received cEMI frames, an application on USB and one with the same tables behind a gateway send the same frames, report the same messages and raise the same exceptions at the same places, until decoding raises; the gateway acknowledges each request with its counter and goes on when its own request is acknowledged. Where the USB side reports no list, the other reports an empty one.", "quantifier": "all sequences of requests and frames, all tables, all counters and channels", "why_tests_cant": "an equality of two programs over all interleavings of sending and receiving, through the wrap of both counters", "anchors": ["knx_stack/__init__.py: encode_msg, decode_msg", "knx_stack/encode/knxnet_ip/tunneling/req.py: encode", "knx_stack/encode/knxnet_ip/tunneling/ack.py: encode", "knx_stack/decode/knxnet_ip/tunneling/req.py: decode", "knx_stack/decode/knxnet_ip/tunneling/ack.py: decode"]}
{"id": "C105", "title": "The text of a State tells apart exactly the states that differ in something other than the channel", "statement": "For names of one line and 16-bit addresses, two State objects have the same text exactly when they agree in medium, visible tables, source, destination and address type of the link-layer data, ASAP, APCI, address type and both counters; the text has a fixed number of lines besides those of the tables, decoding a USB report can change only the line of the link-layer data, and for every new state the text after the tables is the same.", "quantifier": "all states with or without tables, all field values, both ways Python shows an IntEnum", "why_tests_cant": "the text is a concatenation in which names could imitate other parts; that no two different states collide is a statement about all pairs", "anchors": ["knx_stack/state.py: State.__repr__", "knx_stack/definition/layer/link/ldata.py: L_Data.__repr__", "knx_stack/definition/knxnet_ip/state.py: State"]}
{"id": "C106", "title": "The State that every call and every history of calls leaves behind", "statement": "After encode_msg, whether it succeeds or raises, and after decode_msg the whole State object is the one a short specification names: encoding keeps ASAP, APCI and address type of a bus message and moves the remote counter only for the expected acknowledgement; decoding keeps the header of the telegram found, and on KNXnet/IP the local counter and the channel. Hence the state after any history is the fold of that specification; on USB only the last message sent and the last telegram seen leave a trace, every call has the result it would have had as the first one, and all interleavings of the same sends and receptions leave the same state. On KNXnet/IP sending anything but an acknowledgement commutes with receiving whatever moves neither counter nor channel.", "quantifier": "all messages, all octets, all states with or without tables, all histories of calls", "why_tests_cant": "a test sees the fields it looks at after the calls it makes; that no other field changes, in any order of calls, also when a call raises, is a statement about all of them", "anchors": ["knx_stack/__init__.py: encode_msg, decode_msg", "knx_stack/state.py: State"]}
{"id": "C107", "title": "What DPT_Factory.make builds from any dictionary", "statement": "For every datapoint class and every dictionary, the built object holds zeros overwritten by the field of each entry in turn; building fails exactly when some entry by itself is wrong, with the exception of the first such entry; a field reads back what its entry says, reduced to its width; fields not mentioned read as in a new object; the order of the entries does not matter unless the whole value is among the keys, when it does.", "quantifier": "all classes, all dictionaries of any length with integer, name and float values, all orders", "why_tests_cant": "the factory is driven by names at run time; a test tries a few keys, the claim is about all combinations, orders and wrong entries", "anchors": ["knx_stack/datapointtypes.py: DPT_Factory.make"]}
{"id": "C108", "title": "Decoding when a table is missing", "statement": "Octets that carry no telegram that somebody would have to be looked up for give the same result with any tables and with none; without an association table exactly the other telegrams raise AttributeError; with an association table but without datapoint types only group telegrams to listed addresses that read, answer or write are affected, and these raise KeyError without an association and AttributeError with one; all this holds at every position of every sequence of received octets.", "quantifier": "all octet sequences, both media, all states with and without either table, all telegrams", "why_tests_cant": "the State constructor accepts None for both tables and the discovery client uses that; the failures are attribute accesses on None deep in the decoder and depend on the telegram", "anchors": ["knx_stack/state.py: State.get_tsap, get_asaps_and_dpts, individual_address", "knx_stack/decode/layer/transport/t_data_group/ind.py: decode", "knx_stack/decode/layer/transport/t_data_individual/ind.py: decode", "knx_stack/decode/layer/application/a_group_value.py: decode"]}
{"id": "C109", "title": "What the daemon makes of any bytes a client sends", "statement": "For every history and every chunk that is not empty the daemon writes one packet: the octets read from the chunk, behind them the octets the buffer held. The octets read are given by a grammar: nothing from a text of odd length; otherwise one number from every second byte on, up to the first place without a number; blanks are skipped, a sign before one digit is accepted and minus stores the negative number; these octets exist and are unique when a NUL follows in memory, and memory behind the chunk matters only if the text has blanks; the packet buffer after any history is what these rules lay over each other.", "quantifier": "all histories, all chunks of any bytes, all contents of the memory behind them, any library that reads a bare 0x in one way", "why_tests_cant": "tests send hexadecimal digits; what sscanf does at every second byte of other texts, reading the same bytes twice or bytes behind the text, is combinatorial", "anchors": ["daemon/usbhid.c: read_from_client, main"]}
{"id": "C110", "title": "A value described at one application is described the same at another", "statement": "For any two applications with tables and media of their own, any group objects of the same type with a common address, and any value of the type: what the second application reports has the same description and the same properties. A number or name given in the dictionary at one side is the number (reduced to the width of its field) or name read at the other; a number given to a 2-octet float is heard within 0.0101 and one per mille, unless it lies between -0.01 and -0 (C48); one given to a 4-octet float is heard as the nearest single.", "quantifier": "all pairs of states, tables, histories, group objects, types, dictionaries, doubles in range, additional information, padding and frames the bus may make of the request", "why_tests_cant": "tests encode or decode one fixed value; the whole way from a dictionary through two tables and the bus to the other description is not run anywhere", "anchors": ["knx_stack/datapointtypes.py: DPT_Factory, Description_Factory", "knx_stack/encode/layer/application/a_group_value_write/req.py: encode", "knx_stack/decode/layer/application/a_group_value.py: decode"]}
{"id": "C111", "title": "What a stranger's datagrams can do to a tunnel", "statement": "For every history: a datagram leaves the client exactly as it was unless it is a connect response, a disconnect response, a request with the expected counter or an acknowledgement with the current one. Somebody who knows neither channel nor counters makes the client report any telegram with two datagrams (a connect response, even a refusal, then the telegram with counter 0) or with 256 (all counters), in place of the gateway's own telegram, which is acknowledged but not reported; 256 acknowledgements set the counter of its messages to 0; one connect or disconnect response makes it send on another channel until the next one.", "quantifier": "all clients, all histories, all datagrams, all telegrams with a meaning, all channels", "why_tests_cant": "tests feed the datagrams of one well-behaved gateway; an attack needs the right counters after an arbitrary history", "anchors": ["knx_stack/client/knxnet_ip.py: Tunneling.datagram_received", "knx_stack/decode/knxnet_ip/: all modules", "knx_stack/definition/knxnet_ip/state.py: State"]}
{"id": "C112", "title": "The tunnelling client is a machine with six registers", "statement": "For every history of events and every list of messages, what the client puts on the wire and reports is exactly the output of a small machine with six registers (transport there or not, last response seen, channel, expected counter, own counter, phase of the messages), defined without the client's code. The registers decide the whole future: two histories that end in the same registers behave alike for ever after. Nothing smaller would do for counter and channel: two histories that differ in one of them, with the transport there, are told apart by one datagram.", "quantifier": "all clients, all histories, all continuations, all message lists including acknowledgements, with or without a transport", "why_tests_cant": "a test follows one history; that nothing else of the past matters is a statement about all of them", "anchors": ["knx_stack/client/knxnet_ip.py: Tunneling", "knx_stack/decode/knxnet_ip/: all modules", "knx_stack/definition/knxnet_ip/state.py: State"]}
{"id": "C113", "title": "The tables are a notebook of numbers", "statement": "For every association table that can be made and every sequence of calls on it and on its address table (associate, disassociate, adding, removing, a new own address; returning or raising, in any order), a notebook of numbers written without the tables' code gives the same outcome call by call, exceptions included. Afterwards it tells the listed numbers in order, the ASAPs, to which numbers each ASAP sends and to which ASAPs each address is routed, or the exception. A table that cannot be made fails in the notebook with the same exception. What is not in the notebook (names, which object stands for a listed address) never matters for what follows.", "quantifier": "all address tables (in order or not), all initial associations, all histories of calls including failing ones, all ASAPs, all addresses", "why_tests_cant": "tests build a table with a few calls that succeed; what a table is after calls that raised half way, or after changes behind its back, is left open by them", "anchors": ["knx_stack/definition/layer/network/address_table.py: AddressTable", "knx_stack/definition/layer/transport/association_table.py: AssociationTable"]}
{"id": "C114", "title": "Exactly which messages a lossy network keeps from the bus", "statement": "Take a tunnelling client that waits out each exchange, and give every message one of four fates (request and acknowledgement arrive; the request is lost; the acknowledgement is lost; the request is doubled), with telegrams of the bus exchanged in between in any number. Then the messages on the bus are exactly those whose request arrived while the client did not lag; it lags from a lost acknowledgement until the next acknowledgement it sees. A lost request costs that message. A lost acknowledgement costs the next message whose request arrives, and the client counts that one as acknowledged. A client that connects again with its counter at 255 lags from the start. The counters afterwards are given by the numbers of acknowledgements and of telegrams.", "quantifier": "all clients, messages, tables and gateways' channels, all reachable states at rest, all sequences of fates of any length", "why_tests_cant": "the loss shows only one message later, on the bus and not at the client, which reports an acknowledgement; tests run against a network that loses nothing", "anchors": ["knx_stack/client/knxnet_ip.py: Tunneling.datagram_received, Tunneling.writer", "knx_stack/encode/knxnet_ip/tunneling/connection_header.py: create", "knx_stack/decode/knxnet_ip/tunneling/ack.py: decode"]}
{"id": "C115", "title": "The messages of a client that connects again and again", "statement": "Take a client through any number of sessions; in each a gateway accepts it, anything happens, and the connection is lost. Once a session has ended with the client's counter between 1 and 254, nothing it sends in any later session reaches the bus or is acknowledged. If in each session the messages meet fates as in C114, what reaches the bus in each of them follows from the counter the client was made with: with 0 the messages of C114, with 255 the same for a lagging client, else none. So a new client that has seen 1 to 254 acknowledgements in its first session (up to multiples of 256) has put on the bus what arrived then, and never puts there anything more.", "quantifier": "all clients, messages and tables, all numbers of sessions, all accepting responses and channels, all happenings in each session (for the given messages: all fates)", "why_tests_cant": "a test would have to lose and remake the connection of one client object and look at the bus of a gateway that checks counters", "anchors": ["knx_stack/client/knxnet_ip.py: Tunneling.connection_made, Tunneling.connection_lost, Tunneling.datagram_received, Tunneling.writer", "knx_stack/decode/knxnet_ip/tunneling/ack.py: decode", "knx_stack/decode/knxnet_ip/core/connect/res.py: decode"]}
{"id": "C116", "title": "The blocks of KNXnet/IP frames are read back as they are written", "statement": "For all octets, the readers of endpoint, connection request information, connection response data and connection header return the octets at the fixed places and what follows, or fail in one stated way on a block that is too short (the two message classes differ for the endpoint). Applied to what the encoders write they give back what was given: both endpoints and tunnelling with layer 2 from a connect request, the endpoint from search, connection state and disconnect requests, channel, counter, status and the very frame USB would carry from a tunnelling request, channel, counter and status from an acknowledgement; the ports modulo 65536, the numbers modulo 256.", "quantifier": "all octet sequences, all address texts and ports, all link requests and states", "why_tests_cant": "the readers of the message classes have no tests of their own, and one of them is used by no decoder", "anchors": ["knx_stack/definition/knxnet_ip/msg.py: Msg.HPAI, Msg.CRI, Msg.CRD, Msg.header", "knx_stack/definition/usb_hid/msg.py: Msg.HPAI, Msg.CRD", "knx_stack/encode/knxnet_ip/core/hpai.py: encode", "knx_stack/encode/knxnet_ip/tunneling/connection_header.py: encode"]}
{"id": "C117", "title": "A network that reorders datagrams does no harm within one turn of the counters", "statement": "Over a network that loses, repeats and reorders datagrams without limit: as long as the gateway counts at most 254 telegrams as delivered, the client has reported exactly its first telegrams, each once and in order, their number within one of the gateway's count; as long as the writer has sent at most 255 requests, what is on the bus is a part of what it wrote, in order and nothing twice, and all of it but possibly the last message when it waits for each acknowledgement. Both bounds are sharp: with 255 telegrams, or 256 requests, an old copy of the first one is taken again.", "quantifier": "every schedule of transmissions, arrivals, losses, repetitions, overtakings and writer turns, of any length", "why_tests_cant": "datagrams overtake one another rarely, and an old copy must arrive exactly one turn of the counter later", "anchors": ["knx_stack/client/knxnet_ip.py: Tunneling.datagram_received, Tunneling.writer", "knx_stack/decode/knxnet_ip/tunneling/req.py: decode", "knx_stack/decode/knxnet_ip/tunneling/ack.py: decode"]}
{"id": "C118", "title": "Objects of six classes stand for numbers, of the others for none", "statement": "Objects of DPT_Float_16, DPT_Value_Wsp, DPT_Value_Temp and DPT_Value_Lux decode to the KNX value of their two octets within a relative error of 2^-52, those of DPT_Float_32 and DPT_Value_Power to the number of the IEEE 754 pattern; decode and encode of any other object raise AttributeError. Encoding keeps the class, stores in two octets any number up to 671088.6399 in magnitude (not between -0.01 and -0) less than one step below and at most 0.000051 above it, and in four octets the nearest single. What was decoded can be encoded in any other object of the class and decodes the same again, except F800h and patterns that are no number. A number stored and written to a group is the number decoded by every receiver of a class of the same size.", "quantifier": "all objects of all seventeen classes, all finite doubles, all sending states and receivers", "why_tests_cant": "tests decode a handful of values of some of the classes", "anchors": ["knx_stack/datapointtypes.py: DPT_Float_16.decode, DPT_Float_16.encode, DPT_Float_32.decode, DPT_Float_32.encode", "knx_stack/encode/layer/application/a_group_value_write/ind.py: encode", "knx_stack/decode/layer/application/a_group_value.py: decode"]}
{"id": "C119", "title": "What is sent and heard after any calls on the tables is told from the notebook", "statement": "After any sequence of calls on the tables, whether they returned or raised half way, a group message goes to the first number on its ASAP's page of C113's notebook, or raises what the notebook raises; a property message goes to the own number; a telegram is reported to the entries of the group object table to which the notebook routes it, or raises KeyError when there are none. Hence tables with the same notebook cannot be told apart by sending or receiving anything.", "quantifier": "all histories of calls including failing ones and calls behind the table's back, all states, all messages, all octet sequences", "why_tests_cant": "tests stop at the call that raises; nobody sends and receives with the tables it leaves behind", "anchors": ["knx_stack/definition/layer/transport/association_table.py: AssociationTable", "knx_stack/definition/layer/network/address_table.py: AddressTable", "knx_stack/encode/layer/transport/t_data_group/req.py: encode", "knx_stack/decode/layer/transport/t_data_group/ind.py: decode"]}
{"id": "C120", "title": "Tables that are changed while messages come and go stay apart from them", "statement": "In any history that mixes calls on the association, address and group object tables, returning or raising, with messages encoded and decoded, each table says and becomes what it would without any message, and counters and channels become what they would with the tables left alone. On USB every single result is told by the tables of its time alone. So at every moment C113's notebook of the calls made so far tells what is sent and heard (C119), and when the calls were made does not matter for the next message, only what they leave in the notebook and the types.", "quantifier": "all states with tables, all finite histories of table calls and API calls in any order, all messages, all octet sequences", "why_tests_cant": "tests set the tables up once and then send; a table changed in mid conversation, and by a call that raises, is never tried", "anchors": ["knx_stack/state.py: State", "knx_stack/definition/layer/transport/association_table.py: AssociationTable", "knx_stack/definition/layer/network/address_table.py: AddressTable", "knx_stack/definition/layer/application/groupobject_table.py: GroupObjectTable", "knx_stack/__init__.py: encode_msg, decode_msg"]}
{"id": "C121", "title": "Two applications that change their tables while they talk", "statement": "Two applications each make calls of their own on their tables, returning or raising, and send and receive messages, in any order. A group request that one encodes then, carried over the bus and decoded by the other then, is told from the two notebooks (C113) and the two group object tables alone: it goes to the first number on the speaker's page; the listener reports one indication for each entry to which its own notebook routes that number, the number read as a value of the entry's own type; it reports nothing if the number is not listed, and raises KeyError if it is listed and routed nowhere, or ValueError if the first entry cannot show the value.", "quantifier": "every pair of states with tables that came about by any calls, all mixed histories on both sides, every group request, every indication frame the bus can make of it, both media", "why_tests_cant": "two stacks are never put together in the tests, let alone two whose tables change between the messages", "anchors": ["knx_stack/definition/layer/transport/association_table.py: AssociationTable", "knx_stack/definition/layer/network/address_table.py: AddressTable", "knx_stack/definition/layer/application/groupobject_table.py: GroupObjectTable", "knx_stack/__init__.py: encode_msg, decode_msg", "knx_stack/state.py: State"]}
