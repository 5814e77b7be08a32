(** Proofs about the code point enumerations (generated by tools/gen_enums.py). *)
From Coq Require Import NArith.
From Verif Require Import Enums.
Local Open Scope N_scope.

Ltac sweep_bits n :=
  destruct n as [|p]; [reflexivity|];
  repeat (match goal with |- context [match ?q with xI _ => _ | xO _ => _ | xH => _ end] => destruct q end);
  reflexivity.

Lemma mgmt_subtype_into_from n : mgmt_subtype_into_bits (mgmt_subtype_from_bits n) = n.
Proof. unfold mgmt_subtype_from_bits. sweep_bits n. Qed.
Lemma mgmt_subtype_from_into v : (forall n, v = Mg_Unknown n -> mgmt_subtype_from_bits n = Mg_Unknown n) ->
  mgmt_subtype_from_bits (mgmt_subtype_into_bits v) = v.
Proof. destruct v; intros H; try reflexivity. now apply H. Qed.
Lemma mgmt_subtype_from_image v n : mgmt_subtype_from_bits n = v -> mgmt_subtype_into_bits v = n.
Proof. intros <-. apply mgmt_subtype_into_from. Qed.

Lemma ctrl_subtype_into_from n : ctrl_subtype_into_bits (ctrl_subtype_from_bits n) = n.
Proof. unfold ctrl_subtype_from_bits. sweep_bits n. Qed.
Lemma ctrl_subtype_from_into v : (forall n, v = Ct_Unknown n -> ctrl_subtype_from_bits n = Ct_Unknown n) ->
  ctrl_subtype_from_bits (ctrl_subtype_into_bits v) = v.
Proof. destruct v; intros H; try reflexivity. now apply H. Qed.
Lemma ctrl_subtype_from_image v n : ctrl_subtype_from_bits n = v -> ctrl_subtype_into_bits v = n.
Proof. intros <-. apply ctrl_subtype_into_from. Qed.

Lemma data_cf_into_from n : data_cf_into_bits (data_cf_from_bits n) = n.
Proof. unfold data_cf_from_bits. sweep_bits n. Qed.
Lemma data_cf_from_into v : (forall n, v = Cf_Unknown n -> data_cf_from_bits n = Cf_Unknown n) ->
  data_cf_from_bits (data_cf_into_bits v) = v.
Proof. destruct v; intros H; try reflexivity. now apply H. Qed.
Lemma data_cf_from_image v n : data_cf_from_bits n = v -> data_cf_into_bits v = n.
Proof. intros <-. apply data_cf_into_from. Qed.

Lemma data_subtype_into_from n : data_subtype_into_bits (data_subtype_from_bits n) = n.
Proof. unfold data_subtype_from_bits. sweep_bits n. Qed.
Lemma data_subtype_from_into v : (forall n, v = Dt_Unknown n -> data_subtype_from_bits n = Dt_Unknown n) ->
  data_subtype_from_bits (data_subtype_into_bits v) = v.
Proof. destruct v; intros H; try reflexivity. now apply H. Qed.
Lemma data_subtype_from_image v n : data_subtype_from_bits n = v -> data_subtype_into_bits v = n.
Proof. intros <-. apply data_subtype_into_from. Qed.

Lemma reason_into_from n : reason_into_bits (reason_from_bits n) = n.
Proof. unfold reason_from_bits. sweep_bits n. Qed.
Lemma reason_from_into v : (forall n, v = Rs_Unknown n -> reason_from_bits n = Rs_Unknown n) ->
  reason_from_bits (reason_into_bits v) = v.
Proof. destruct v; intros H; try reflexivity. now apply H. Qed.
Lemma reason_from_image v n : reason_from_bits n = v -> reason_into_bits v = n.
Proof. intros <-. apply reason_into_from. Qed.

Lemma status_into_from n : status_into_bits (status_from_bits n) = n.
Proof. unfold status_from_bits. sweep_bits n. Qed.
Lemma status_from_into v : (forall n, v = St_Unknown n -> status_from_bits n = St_Unknown n) ->
  status_from_bits (status_into_bits v) = v.
Proof. destruct v; intros H; try reflexivity. now apply H. Qed.
Lemma status_from_image v n : status_from_bits n = v -> status_into_bits v = n.
Proof. intros <-. apply status_into_from. Qed.

Lemma auth_algo_into_from n : auth_algo_into_bits (auth_algo_from_bits n) = n.
Proof. unfold auth_algo_from_bits. sweep_bits n. Qed.
Lemma auth_algo_from_into v : (forall n, v = Au_Unknown n -> auth_algo_from_bits n = Au_Unknown n) ->
  auth_algo_from_bits (auth_algo_into_bits v) = v.
Proof. destruct v; intros H; try reflexivity. now apply H. Qed.
Lemma auth_algo_from_image v n : auth_algo_from_bits n = v -> auth_algo_into_bits v = n.
Proof. intros <-. apply auth_algo_into_from. Qed.

Lemma category_into_from n : category_into_bits (category_from_bits n) = n.
Proof. unfold category_from_bits. sweep_bits n. Qed.
Lemma category_from_into v : (forall n, v = Cat_Unknown n -> category_from_bits n = Cat_Unknown n) ->
  category_from_bits (category_into_bits v) = v.
Proof. destruct v; intros H; try reflexivity. now apply H. Qed.
Lemma category_from_image v n : category_from_bits n = v -> category_into_bits v = n.
Proof. intros <-. apply category_into_from. Qed.

Lemma self_prot_into_from n : self_prot_into_bits (self_prot_from_bits n) = n.
Proof. unfold self_prot_from_bits. sweep_bits n. Qed.
Lemma self_prot_from_into v : (forall n, v = Sp_Unknown n -> self_prot_from_bits n = Sp_Unknown n) ->
  self_prot_from_bits (self_prot_into_bits v) = v.
Proof. destruct v; intros H; try reflexivity. now apply H. Qed.
Lemma self_prot_from_image v n : self_prot_from_bits n = v -> self_prot_into_bits v = n.
Proof. intros <-. apply self_prot_into_from. Qed.

Lemma mesh_peering_proto_into_from n : mesh_peering_proto_into_bits (mesh_peering_proto_from_bits n) = n.
Proof. unfold mesh_peering_proto_from_bits. sweep_bits n. Qed.
Lemma mesh_peering_proto_from_into v : (forall n, v = Mpp_Unknown n -> mesh_peering_proto_from_bits n = Mpp_Unknown n) ->
  mesh_peering_proto_from_bits (mesh_peering_proto_into_bits v) = v.
Proof. destruct v; intros H; try reflexivity. now apply H. Qed.
Lemma mesh_peering_proto_from_image v n : mesh_peering_proto_from_bits n = v -> mesh_peering_proto_into_bits v = n.
Proof. intros <-. apply mesh_peering_proto_into_from. Qed.

Lemma mesh_path_proto_into_from n : mesh_path_proto_into_bits (mesh_path_proto_from_bits n) = n.
Proof. unfold mesh_path_proto_from_bits. sweep_bits n. Qed.
Lemma mesh_path_proto_from_into v : (forall n, v = Mpsp_Unknown n -> mesh_path_proto_from_bits n = Mpsp_Unknown n) ->
  mesh_path_proto_from_bits (mesh_path_proto_into_bits v) = v.
Proof. destruct v; intros H; try reflexivity. now apply H. Qed.
Lemma mesh_path_proto_from_image v n : mesh_path_proto_from_bits n = v -> mesh_path_proto_into_bits v = n.
Proof. intros <-. apply mesh_path_proto_into_from. Qed.

Lemma mesh_path_metric_into_from n : mesh_path_metric_into_bits (mesh_path_metric_from_bits n) = n.
Proof. unfold mesh_path_metric_from_bits. sweep_bits n. Qed.
Lemma mesh_path_metric_from_into v : (forall n, v = Mpsm_Unknown n -> mesh_path_metric_from_bits n = Mpsm_Unknown n) ->
  mesh_path_metric_from_bits (mesh_path_metric_into_bits v) = v.
Proof. destruct v; intros H; try reflexivity. now apply H. Qed.
Lemma mesh_path_metric_from_image v n : mesh_path_metric_from_bits n = v -> mesh_path_metric_into_bits v = n.
Proof. intros <-. apply mesh_path_metric_into_from. Qed.

Lemma mesh_congestion_into_from n : mesh_congestion_into_bits (mesh_congestion_from_bits n) = n.
Proof. unfold mesh_congestion_from_bits. sweep_bits n. Qed.
Lemma mesh_congestion_from_into v : (forall n, v = Mcc_Unknown n -> mesh_congestion_from_bits n = Mcc_Unknown n) ->
  mesh_congestion_from_bits (mesh_congestion_into_bits v) = v.
Proof. destruct v; intros H; try reflexivity. now apply H. Qed.
Lemma mesh_congestion_from_image v n : mesh_congestion_from_bits n = v -> mesh_congestion_into_bits v = n.
Proof. intros <-. apply mesh_congestion_into_from. Qed.

Lemma mesh_sync_into_from n : mesh_sync_into_bits (mesh_sync_from_bits n) = n.
Proof. unfold mesh_sync_from_bits. sweep_bits n. Qed.
Lemma mesh_sync_from_into v : (forall n, v = Msm_Unknown n -> mesh_sync_from_bits n = Msm_Unknown n) ->
  mesh_sync_from_bits (mesh_sync_into_bits v) = v.
Proof. destruct v; intros H; try reflexivity. now apply H. Qed.
Lemma mesh_sync_from_image v n : mesh_sync_from_bits n = v -> mesh_sync_into_bits v = n.
Proof. intros <-. apply mesh_sync_into_from. Qed.

Lemma mesh_auth_into_from n : mesh_auth_into_bits (mesh_auth_from_bits n) = n.
Proof. unfold mesh_auth_from_bits. sweep_bits n. Qed.
Lemma mesh_auth_from_into v : (forall n, v = Map_Unknown n -> mesh_auth_from_bits n = Map_Unknown n) ->
  mesh_auth_from_bits (mesh_auth_into_bits v) = v.
Proof. destruct v; intros H; try reflexivity. now apply H. Qed.
Lemma mesh_auth_from_image v n : mesh_auth_from_bits n = v -> mesh_auth_into_bits v = n.
Proof. intros <-. apply mesh_auth_into_from. Qed.

Lemma sec_chan_into_from n : sec_chan_into_bits (sec_chan_from_bits n) = n.
Proof. unfold sec_chan_from_bits. sweep_bits n. Qed.
Lemma sec_chan_from_into v : (forall n, v = Sco_Unknown n -> sec_chan_from_bits n = Sco_Unknown n) ->
  sec_chan_from_bits (sec_chan_into_bits v) = v.
Proof. destruct v; intros H; try reflexivity. now apply H. Qed.
Lemma sec_chan_from_image v n : sec_chan_from_bits n = v -> sec_chan_into_bits v = n.
Proof. intros <-. apply sec_chan_into_from. Qed.

Lemma ht_prot_into_from n : ht_prot_into_bits (ht_prot_from_bits n) = n.
Proof. unfold ht_prot_from_bits. sweep_bits n. Qed.
Lemma ht_prot_from_into v : (forall n, v = Hpm_Unknown n -> ht_prot_from_bits n = Hpm_Unknown n) ->
  ht_prot_from_bits (ht_prot_into_bits v) = v.
Proof. destruct v; intros H; try reflexivity. now apply H. Qed.
Lemma ht_prot_from_image v n : ht_prot_from_bits n = v -> ht_prot_into_bits v = n.
Proof. intros <-. apply ht_prot_into_from. Qed.

Lemma sm_pw_save_into_from n : sm_pw_save_into_bits (sm_pw_save_from_bits n) = n.
Proof. unfold sm_pw_save_from_bits. sweep_bits n. Qed.
Lemma sm_pw_save_from_into v : (forall n, v = Sm_Unknown n -> sm_pw_save_from_bits n = Sm_Unknown n) ->
  sm_pw_save_from_bits (sm_pw_save_into_bits v) = v.
Proof. destruct v; intros H; try reflexivity. now apply H. Qed.
Lemma sm_pw_save_from_image v n : sm_pw_save_from_bits n = v -> sm_pw_save_into_bits v = n.
Proof. intros <-. apply sm_pw_save_into_from. Qed.

Lemma max_ampdu_into_from n : max_ampdu_into_bits (max_ampdu_from_bits n) = n.
Proof. unfold max_ampdu_from_bits. sweep_bits n. Qed.
Lemma max_ampdu_from_into v : (forall n, v = Mal_Unknown n -> max_ampdu_from_bits n = Mal_Unknown n) ->
  max_ampdu_from_bits (max_ampdu_into_bits v) = v.
Proof. destruct v; intros H; try reflexivity. now apply H. Qed.
Lemma max_ampdu_from_image v n : max_ampdu_from_bits n = v -> max_ampdu_into_bits v = n.
Proof. intros <-. apply max_ampdu_into_from. Qed.

Lemma mpdu_density_into_from n : mpdu_density_into_bits (mpdu_density_from_bits n) = n.
Proof. unfold mpdu_density_from_bits. sweep_bits n. Qed.
Lemma mpdu_density_from_into v : (forall n, v = Md_Unknown n -> mpdu_density_from_bits n = Md_Unknown n) ->
  mpdu_density_from_bits (mpdu_density_into_bits v) = v.
Proof. destruct v; intros H; try reflexivity. now apply H. Qed.
Lemma mpdu_density_from_image v n : mpdu_density_from_bits n = v -> mpdu_density_into_bits v = n.
Proof. intros <-. apply mpdu_density_into_from. Qed.

Lemma bf_calibration_into_from n : bf_calibration_into_bits (bf_calibration_from_bits n) = n.
Proof. unfold bf_calibration_from_bits. sweep_bits n. Qed.
Lemma bf_calibration_from_into v : (forall n, v = Bc_Unknown n -> bf_calibration_from_bits n = Bc_Unknown n) ->
  bf_calibration_from_bits (bf_calibration_into_bits v) = v.
Proof. destruct v; intros H; try reflexivity. now apply H. Qed.
Lemma bf_calibration_from_image v n : bf_calibration_from_bits n = v -> bf_calibration_into_bits v = n.
Proof. intros <-. apply bf_calibration_into_from. Qed.

Lemma bf_feedback_into_from n : bf_feedback_into_bits (bf_feedback_from_bits n) = n.
Proof. unfold bf_feedback_from_bits. sweep_bits n. Qed.
Lemma bf_feedback_from_into v : (forall n, v = Bf_Unknown n -> bf_feedback_from_bits n = Bf_Unknown n) ->
  bf_feedback_from_bits (bf_feedback_into_bits v) = v.
Proof. destruct v; intros H; try reflexivity. now apply H. Qed.
Lemma bf_feedback_from_image v n : bf_feedback_from_bits n = v -> bf_feedback_into_bits v = n.
Proof. intros <-. apply bf_feedback_into_from. Qed.

Lemma grouping_into_from n : grouping_into_bits (grouping_from_bits n) = n.
Proof. unfold grouping_from_bits. sweep_bits n. Qed.
Lemma grouping_from_into v : (forall n, v = Gc_Unknown n -> grouping_from_bits n = Gc_Unknown n) ->
  grouping_from_bits (grouping_into_bits v) = v.
Proof. destruct v; intros H; try reflexivity. now apply H. Qed.
Lemma grouping_from_image v n : grouping_from_bits n = v -> grouping_into_bits v = n.
Proof. intros <-. apply grouping_into_from. Qed.

Lemma vht_mcs_into_from n : vht_mcs_into_bits (vht_mcs_from_bits n) = n.
Proof. unfold vht_mcs_from_bits. sweep_bits n. Qed.
Lemma vht_mcs_from_into v : (forall n, v = Vm_Unknown n -> vht_mcs_from_bits n = Vm_Unknown n) ->
  vht_mcs_from_bits (vht_mcs_into_bits v) = v.
Proof. destruct v; intros H; try reflexivity. now apply H. Qed.
Lemma vht_mcs_from_image v n : vht_mcs_from_bits n = v -> vht_mcs_into_bits v = n.
Proof. intros <-. apply vht_mcs_into_from. Qed.

Lemma channel_width_into_from n : channel_width_into_bits (channel_width_from_bits n) = n.
Proof. unfold channel_width_from_bits. sweep_bits n. Qed.
Lemma channel_width_from_into v : (forall n, v = Cw_Unknown n -> channel_width_from_bits n = Cw_Unknown n) ->
  channel_width_from_bits (channel_width_into_bits v) = v.
Proof. destruct v; intros H; try reflexivity. now apply H. Qed.
Lemma channel_width_from_image v n : channel_width_from_bits n = v -> channel_width_into_bits v = n.
Proof. intros <-. apply channel_width_into_from. Qed.

Lemma key_desc_version_into_from n : key_desc_version_into_bits (key_desc_version_from_bits n) = n.
Proof. unfold key_desc_version_from_bits. sweep_bits n. Qed.
Lemma key_desc_version_from_into v : (forall n, v = Kdv_Unknown n -> key_desc_version_from_bits n = Kdv_Unknown n) ->
  key_desc_version_from_bits (key_desc_version_into_bits v) = v.
Proof. destruct v; intros H; try reflexivity. now apply H. Qed.
Lemma key_desc_version_from_image v n : key_desc_version_from_bits n = v -> key_desc_version_into_bits v = n.
Proof. intros <-. apply key_desc_version_into_from. Qed.
