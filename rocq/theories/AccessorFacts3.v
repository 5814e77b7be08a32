(** Proofs about the accessors: payloads of protected and unprotected frames. *)
From Verif Require Import Base SpecBase BaseFacts Rsn SpecRsn RsnFacts4 RsnFacts3 RsnFacts2 RsnFacts CryptoHeader Amsdu Data SpecData DataFacts DataFacts5.
Section Facts.
Context {cfg : Cfg}.
Lemma inner_payload h p mic body : wf_bytes p -> end_ok body ->
  (N.testbit (dh_flags h) 6 = false /\ body = p) \/
  (N.testbit (dh_flags h) 6 = true /\ exists m hdr tag, mic = Some m /\ encapsulated m p hdr body tag) ->
  exists w, potentially_wrapped_payload (h, Some p) mic = Ok (Some w) /\
    wrapped_payload w = if is_amsdu h then Pl_AMSDU (Some body) else Pl_Single body.
Proof.
  intros W K H. destruct (payload_accessor h p mic W) as (A & _ & C). destruct H as [(F & ->)|(F & m & hdr & tag & M & E)].
  - rewrite (A F). replace (strict_end && (length p =? 0)) with false.
    + eexists. split; reflexivity.
    + symmetry. destruct K as [K|K]; [now rewrite K|]. destruct p; [congruence|]. apply andb_false_r.
  - destruct (C F m M) as (D & _). destruct (D _ _ _ E K) as (ch & -> & _). eexists. split; reflexivity.
Qed.
Lemma rsn_same_bytes x y v : shows x v -> shows y v -> ok_view v -> gap_free v -> length (enc_rsn 4 v) <= 255 ->
  exists bs, Writes (wr_rsn x) bs /\ Writes (wr_rsn y) bs.
Proof. intros X Y O G L. exists (enc_rsn 4 v). split; now apply rsn_write. Qed.
End Facts.
