#!/usr/bin/env python3
"""Append results of mutate.py and sweep.py to seeded/LOG.jsonl, once each.

usage: collect_log.py OUT.jsonl...
Control runs and runs that ended with an error of the script are left out.
An entry without failing theorem needs an entry in TIGHTENED or EQUIVALENT.
"""
import json, os, sys

LOG = os.path.join(os.path.dirname(os.path.abspath(__file__)), "..", "seeded", "LOG.jsonl")
TITLES = {x["id"]: x["title"] for x in map(json.loads, open(os.path.join(os.path.dirname(LOG), "..", "properties.jsonl")))}
TIGHTENED = {
    ("SpecReserve.answers", "RTS frames to others are answered"): ["C95_only"],
    ("Data.is_cf_ack", "CF-Ack without data no longer counted as CF-Ack"): ["C29_piggyback"],
    ("Data.is_cf_poll", "QoS CF-Poll missed"): ["C29_piggyback"],
    ("Data.data_length", "length_in_bytes counts the FCS"): ["C51_partial", "C51_length"],
    ("Amsdu.amsdu_iter_length", "iterator length off by four"): ["C50_amsdu", "C50_forward"],
    ("Elements.iter_next", "iterator not exhausted after an error"): ["C50_read_iterator"],
    ("Elements.iter_len", "length off by one"): ["C50_len_partial", "C50_len_refuted"],
    ("Hashes.feed_slice", "list items exchanged"): ["C59_prefix_free"],
    ("Hashes.feed_tim", "list item dropped: Fed_u8 (te_period t)"): ["C59_distinct"],
    ("Text.vht_mcs_debug", "results of the cases Vm_ZeroToSeven and Vm_ZeroToEight exchanged"): ["C66_vht_map"],
    ("Accessors.f32_mul", "number 24 becomes 23"): ["C14_rate_macro_all"],
    ("Text.pmkid_display", "number 16 becomes 15"): ["C66_pmkid"],
    ("Mgmt.VENDOR_SPECIFIC_ACTION_HEADER_LENGTH", "number 4 becomes 3"): ["C45_header_length"],
    ("ElementTypes.OWETransitionModeElement", "list items exchanged: 0x9a and 0x1c"): ["C12_ids"],
    ("Elements.iter_len", "number 0 becomes 1"): ["C50_len_fixed"],
    ("Mgmt.rd_mesh_confirm", "error BadInput becomes TooBig"): ["C75_action"],
    ("Generic.ctrl_kind", "false becomes true"): ["C44_action_matches"],
    ("Generic.data_kind", "false becomes true"): ["C44_action_matches"],
    ("Mgmt.no_action", "false becomes true"): ["C44_action_matches"],
    ("Mgmt.c_empty", "number 0 becomes 1"): ["C25_containers"],
    ("SpecAck.acknowledged", "the sender takes acknowledgements for others"): ["C98_once", "C98_all"],
    ("Text.te_defmt", "field te_period becomes te_count"): ["C66_element_defmt"],
}
# edits that change nothing a claim is about, or nothing anyone can observe: (definition, start of the edit) -> why
EQUIVALENT = {
    ("Base.rd_u8", "error TooBig becomes BadOffset"): "none: which of the two errors for missing bytes scroll reports is left to it, and all claims treat them alike",
    ("Accessors.f32_of_N", "false becomes true"): "none: the sign given for an exact zero, and the only number converted is 1000",
    ("Elements.iter_collect", "Panic becomes Err BadInput"): "none: every item takes a byte, so the fuel does not run out",
    ("KeyMgmt.chunk_lengths", "condition len =? 0 becomes false"): "none: the number of rounds is the length, so there is none for length zero",
    ("Accessors.f32_as_usize", "number 1 becomes 2"): "none: the value is divided by 500, which gives the same for both numbers",
    ("Tim.tim_bitmap_zero", "number 0 becomes 1"): "none: the lowest bit is set in either case",
    ("Bits.lget", "number 0 becomes 1"): "none: the default is returned for a field which is not in the layout, and no field is asked for which is not",
}

def main():
    seen = set()
    lines = [json.loads(l) for l in open(LOG)] if os.path.exists(LOG) else []
    for d in lines:
        seen.add((d["definition"], d["edit"], bool(d["theorems_failed"])))
    new = []
    for f in sys.argv[1:]:
        for l in open(f):
            d = json.loads(l)
            if d.get("error") or "control run" in d["edit"]:
                continue
            if "old" in d:
                d["edit"] += ": `%s` -> `%s`" % (" ".join(d["old"].split()), " ".join(d["new"].split()))
            key = (d["definition"], d["edit"])
            if key + (bool(d["theorems_failed"]),) in seen:
                continue
            seen.add(key + (bool(d["theorems_failed"]),))
            tight = [w for (n, e), w in TIGHTENED.items() if n == d["definition"] and d["edit"].startswith(e)]
            t = [] if d["theorems_failed"] else tight[0] if tight else None
            why = [w for (n, e), w in EQUIVALENT.items() if n == d["definition"] and d["edit"].startswith(e)]
            if t is None and why:
                d["claim"], t = why[0], []
            if t is None:
                print("undetected:", key)
                continue
            if not d["claim"] and t:
                d["claim"] = "; ".join(sorted({x[:3] + " " + TITLES[x[:3]] for x in t}))
            new.append({"definition": d["definition"], "edit": d["edit"], "claim": d["claim"],
                        "theorems_failed": d["theorems_failed"], "theorems_tightened": t})
    with open(LOG, "a") as g:
        for d in new:
            g.write(json.dumps(d) + "\n")
    print(len(new), "new lines")

if __name__ == "__main__":
    main()
