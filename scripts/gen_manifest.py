#!/usr/bin/env python3
"""Writes MANIFEST.json.  Statuses: P proved, p partial."""
import json
C = []
def claim(pid, status, theorems, note):
    C.append({"property": pid, "status": status, "theorems": theorems, "note": note})
claim("C01","proved",["C01_integers_are_big_endian"],"both host byte orders, all widths")
claim("C02","proved",["C02_table_roundtrip","C02_allocation_failure"],"buffers below 2^30 bytes")
claim("C03","proved",["C03_table_encoding_exact"],"buffers below 2^32 bytes; also fails for unknown kinds")
claim("C04","proved",["C04_table_decoding_total_and_safe"],"inputs below 2^30 bytes (the C entry counter is an int)")
claim("C05","proved",["C05_depth_limit"],"")
claim("C06","partial",["C06_sent_table_is_received_partial","C06_long_key_refuted","C06_deep_nesting_refuted"],
  "False as stated: keys longer than 255 bytes are sent with a truncated length octet; nesting deeper than 100 is accepted for sending. Proved for short keys and depth <= 100.")
exec(open(__file__.replace("gen_manifest.py","claims_more.py")).read())
json.dump({"claims": C}, open(__file__.replace("scripts/gen_manifest.py","MANIFEST.json"),"w"), indent=1)
