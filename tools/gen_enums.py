"""Transcribes every serializable_enum! of /repo into rocq/theories/Enums.v.

One Coq inductive per enumeration: the named variants plus the catch-all Unknown that
the macro adds.  from_bits and into_bits are explicit matches with the numbers of the source.
"""
import re, os
SRC = "/repo/src/"
ROOT = os.path.dirname(os.path.dirname(os.path.abspath(__file__)))
PREFIX = [  # file, enum, constructor prefix, function prefix
 ("common/subtypes/mgmt.rs", "ManagementFrameSubtype", "Mg", "mgmt_subtype"),
 ("common/subtypes/control.rs", "ControlFrameSubtype", "Ct", "ctrl_subtype"),
 ("common/subtypes/data.rs", "DataFrameCF", "Cf", "data_cf"),
 ("common/subtypes/data.rs", "DataFrameSubtype", "Dt", "data_subtype"),
 ("common/reason.rs", "IEEE80211Reason", "Rs", "reason"),
 ("common/status_code.rs", "IEEE80211StatusCode", "St", "status"),
 ("common/auth_algo_num.rs", "IEEE80211AuthenticationAlgorithmNumber", "Au", "auth_algo"),
 ("frames/mgmt_frame/body/action/mod.rs", "CategoryCode", "Cat", "category"),
 ("frames/mgmt_frame/body/action/self_protected.rs", "SelfProtectedActionCode", "Sp", "self_prot"),
 ("elements/mesh/mesh_peering_management.rs", "MeshPeeringProtocolIdentifier", "Mpp", "mesh_peering_proto"),
 ("elements/mesh/mesh_configuration.rs", "MeshConfigurationActivePathSelectionProtocolIdentifier", "Mpsp", "mesh_path_proto"),
 ("elements/mesh/mesh_configuration.rs", "MeshConfigurationActivePathSelectionMetricIdentifier", "Mpsm", "mesh_path_metric"),
 ("elements/mesh/mesh_configuration.rs", "MeshConfigurationCongestionControlModeIdentifier", "Mcc", "mesh_congestion"),
 ("elements/mesh/mesh_configuration.rs", "MeshConfigurationSynchronizationMethodIdentifier", "Msm", "mesh_sync"),
 ("elements/mesh/mesh_configuration.rs", "MeshConfigurationAuthenticationProtocolIdentifier", "Map", "mesh_auth"),
 ("elements/ht/operation.rs", "SecondaryChannelOffset", "Sco", "sec_chan"),
 ("elements/ht/operation.rs", "HTProtectionMode", "Hpm", "ht_prot"),
 ("elements/ht/capabilities.rs", "SmPwSave", "Sm", "sm_pw_save"),
 ("elements/ht/capabilities.rs", "MAXAMpduLength", "Mal", "max_ampdu"),
 ("elements/ht/capabilities.rs", "MpduDensity", "Md", "mpdu_density"),
 ("elements/ht/capabilities.rs", "BeamformingCalibration", "Bc", "bf_calibration"),
 ("elements/ht/capabilities.rs", "BeamformingFeedback", "Bf", "bf_feedback"),
 ("elements/ht/capabilities.rs", "GroupingCapability", "Gc", "grouping"),
 ("elements/vht.rs", "VHTMCSSupport", "Vm", "vht_mcs"),
 ("elements/vht.rs", "ChannelWidth", "Cw", "channel_width"),
 ("crypto/eapol.rs", "KeyDescriptorVersion", "Kdv", "key_desc_version"),
]
out = ["""(** Code point enumerations: every [serializable_enum!] of the crate, transcribed from the source
    by tools/gen_enums.py (the generated file is the one that counts). The macro is the dependency
    macro-bits 0.1.5: named variants, a catch-all [Unknown], [from_bits] and [into_bits]. *)
From Coq Require Import NArith.
Local Open Scope N_scope.
"""]
seen = 0
for f, enum, cp, fp in PREFIX:
    lines = open(SRC + f).read().split("\n")
    start = next(i for i, l in enumerate(lines) if re.search(r"pub enum " + enum + r"\b", l))
    width = re.search(r":\s*(u\d+)", lines[start]).group(1)
    variants = []
    i = start + 1
    while lines[i].strip() != "}":
        m = re.match(r"\s*(\w+)\s*=>\s*(\w+),?\s*$", lines[i])
        if m:
            variants.append((m.group(1), int(m.group(2).replace("_", ""), 0), i + 1))
        i += 1
    seen += 1
    out.append(f"(** /repo/src/{f}:{start+1}-{i+1} [{enum}: {width}] *)")
    out.append(f"Inductive {enum} :=")
    for v, n, ln in variants:
        out.append(f"| {cp}_{v}")
    out.append(f"| {cp}_Unknown (n : N).")
    out.append(f"(** /repo/src/{f}:{variants[0][2]}-{variants[-1][2]} [from_bits] *)")
    out.append(f"Definition {fp}_from_bits (n : N) : {enum} :=\n  match n with")
    for v, n, ln in variants:
        out.append(f"  | {n} => {cp}_{v}")
    out.append(f"  | _ => {cp}_Unknown n\n  end.")
    out.append(f"(** /repo/src/{f}:{variants[0][2]}-{variants[-1][2]} [into_bits] *)")
    out.append(f"Definition {fp}_into_bits (v : {enum}) : N :=\n  match v with")
    for v, n, ln in variants:
        out.append(f"  | {cp}_{v} => {n}")
    out.append(f"  | {cp}_Unknown n => n\n  end.\n")
open(ROOT + "/rocq/theories/Enums.v", "w").write("\n".join(out))
# proofs
pf = ["""(** Proofs about the code point enumerations (generated by tools/gen_enums.py). *)
From Coq Require Import NArith.
From Verif Require Import Enums.
Local Open Scope N_scope.

Ltac sweep_bits n :=
  destruct n as [|p]; [reflexivity|];
  repeat (match goal with |- context [match ?q with xI _ => _ | xO _ => _ | xH => _ end] => destruct q end);
  reflexivity.
"""]
for f, enum, cp, fp in PREFIX:
    pf.append(f"Lemma {fp}_into_from n : {fp}_into_bits ({fp}_from_bits n) = n.\nProof. unfold {fp}_from_bits. sweep_bits n. Qed.")
    pf.append(f"""Lemma {fp}_from_into v : (forall n, v = {cp}_Unknown n -> {fp}_from_bits n = {cp}_Unknown n) ->
  {fp}_from_bits ({fp}_into_bits v) = v.
Proof. destruct v; intros H; try reflexivity. now apply H. Qed.""")
    pf.append(f"""Lemma {fp}_from_image v n : {fp}_from_bits n = v -> {fp}_into_bits v = n.
Proof. intros <-. apply {fp}_into_from. Qed.
""")
open(ROOT + "/rocq/theories/EnumsFacts.v", "w").write("\n".join(pf))
total = sum(open(os.path.join(d, x)).read().count("serializable_enum! {") for d, _, fs in os.walk(SRC) for x in fs if x.endswith(".rs"))
assert seen == total, (seen, total)
