"""Write rocq/theories/RepoBytes.v: the byte strings of /repo/bins that the project's tests and examples read."""
import os
HERE = os.path.dirname(os.path.abspath(__file__))
FILES = ["elements/rsn", "elements/ssid", "elements/supported_rates", "elements/dsss_parameter_set", "frames/action_mesh_open",
         "frames/awdl_action", "frames/beacon", "frames/beacon_owe", "frames/assoc", "frames/qos_data", "frames/action_vendor"]
with open(os.path.join(HERE, "..", "rocq", "theories", "RepoBytes.v"), "w") as f:
    f.write("(** The files of /repo/bins, generated by tools/gen_repo_tests.py. *)\nFrom Verif Require Import Base.\n")
    for n in FILES:
        data = open("/repo/bins/%s.bin" % n, "rb").read()
        f.write("(** /repo/bins/%s.bin *)\nDefinition %s_bin : bytes := [\n" % (n, n.split("/")[1]))
        for i in range(0, len(data), 24):
            f.write("  " + "; ".join("0x%02x" % b for b in data[i:i + 24]) + (";" if i + 24 < len(data) else "") + "\n")
        f.write("  ]%N.\n")
