(** Code points of IEEE Std 802.11-2020 for the enumerations of the crate, and what it means for
    an enumeration to represent them. *)
From Coq Require Import List NArith.
From Verif Require Import Enums.
Import ListNotations.
Local Open Scope N_scope.

(** An enumeration with conversions, the values the standard names, and the catch-all. *)
Record CodeEnum := {
  ce_type : Type;
  ce_from : N -> ce_type;
  ce_into : ce_type -> N;
  ce_unknown : N -> ce_type;
  ce_std : list (ce_type * N)
}.
(** The conversions are exactly the code points of the standard: lossless in both directions,
    named values on the standard's numbers, everything else in the catch-all. *)
Definition enum_correct (e : CodeEnum) : Prop :=
  (forall n, ce_into e (ce_from e n) = n) /\
  (forall v n, In (v, n) (ce_std e) -> ce_into e v = n /\ ce_from e n = v) /\
  (forall n, ~ In n (map snd (ce_std e)) -> ce_from e n = ce_unknown e n) /\
  (forall v, In v (map fst (ce_std e)) \/ exists n, v = ce_unknown e n) /\
  (forall n, ce_into e (ce_unknown e n) = n) /\
  NoDup (map snd (ce_std e)).

(** ManagementFrameSubtype: Table 9-1, management (type 0) *)
Definition std_mgmt_subtype : list (ManagementFrameSubtype * N) :=
  [ (Mg_AssociationRequest, 0); (Mg_AssociationResponse, 1); (Mg_ProbeRequest, 4);
    (Mg_ProbeResponse, 5); (Mg_Beacon, 8); (Mg_ATIM, 9); (Mg_Disassociation, 10);
    (Mg_Authentication, 11); (Mg_Deauthentication, 12); (Mg_Action, 13);
    (Mg_ActionNoACK, 14) ].
Definition enum_mgmt_subtype : CodeEnum := Build_CodeEnum ManagementFrameSubtype mgmt_subtype_from_bits mgmt_subtype_into_bits Mg_Unknown std_mgmt_subtype.

(** ControlFrameSubtype: Table 9-1, control (type 1) *)
Definition std_ctrl_subtype : list (ControlFrameSubtype * N) :=
  [ (Ct_TACK, 3); (Ct_BeamformingReportPoll, 4); (Ct_VHTNDPAnnouncement, 5);
    (Ct_ControlFrameExtension, 6); (Ct_ControlWrapper, 7); (Ct_BlockAckRequest, 8);
    (Ct_BlockAck, 9); (Ct_PSPoll, 10); (Ct_RTS, 11); (Ct_CTS, 12); (Ct_Ack, 13); (Ct_CFEnd, 14);
    (Ct_CFEndAck, 15) ].
Definition enum_ctrl_subtype : CodeEnum := Build_CodeEnum ControlFrameSubtype ctrl_subtype_from_bits ctrl_subtype_into_bits Ct_Unknown std_ctrl_subtype.

(** DataFrameCF: Table 9-1: the two low subtype bits of data frames are +CF-Ack and +CF-Poll *)
Definition std_data_cf : list (DataFrameCF * N) :=
  [ (Cf_None, 0); (Cf_Ack, 1); (Cf_Poll, 2); (Cf_AckPoll, 3) ].
Definition enum_data_cf : CodeEnum := Build_CodeEnum DataFrameCF data_cf_from_bits data_cf_into_bits Cf_Unknown std_data_cf.

(** DataFrameSubtype: Table 9-1, data (type 2) *)
Definition std_data_subtype : list (DataFrameSubtype * N) :=
  [ (Dt_Data, 0); (Dt_DataCFAck, 1); (Dt_DataCFPoll, 2); (Dt_DataCFAckCFPoll, 3); (Dt_Null, 4);
    (Dt_CFAck, 5); (Dt_CFPoll, 6); (Dt_CFAckCFPoll, 7); (Dt_QoSData, 8); (Dt_QoSDataCFAck, 9);
    (Dt_QoSDataCFPoll, 10); (Dt_QoSDataCFAckCFPoll, 11); (Dt_QoSNull, 12); (Dt_QoSCFPoll, 14);
    (Dt_QoSCFAckCFPoll, 15) ].
Definition enum_data_subtype : CodeEnum := Build_CodeEnum DataFrameSubtype data_subtype_from_bits data_subtype_into_bits Dt_Unknown std_data_subtype.

(** IEEE80211Reason: Table 9-49, reason codes *)
Definition std_reason : list (IEEE80211Reason * N) :=
  [ (Rs_Unspecified, 1); (Rs_InvalidAuthentication, 2); (Rs_LeavingNetworkDeauth, 3);
    (Rs_Inactivity, 4); (Rs_NoMoreSTAs, 5); (Rs_InvalidClass2Frame, 6);
    (Rs_InvalidClass3Frame, 7); (Rs_LeavingNetworkDisassoc, 8); (Rs_MeshPeeringCancelled, 52);
    (Rs_MeshMaxPeers, 53); (Rs_MeshConfigurationPolicyViolation, 54); (Rs_MeshCloseRcvd, 55);
    (Rs_MeshMaxRetries, 56); (Rs_MeshConfirmTimeout, 57); (Rs_MeshInvalidGTK, 58);
    (Rs_MeshInconsistentParameters, 59); (Rs_MeshInvalidSecurityCapability, 60);
    (Rs_MeshPathErrorNoProxyInformation, 61); (Rs_MeshPathErrorNoForwardingInformation, 62);
    (Rs_MeshPathErrorDestinationUnreachable, 63); (Rs_MacAddressAlreadyExistsInMBSS, 64);
    (Rs_MeshChannelSwitchRegulatoryRequirements, 65); (Rs_MeshChannelSwitchUnspecified, 66);
    (Rs_TransmissionLinkEstablishmentFailed, 67); (Rs_AlternativeChannelOccupied, 68) ].
Definition enum_reason : CodeEnum := Build_CodeEnum IEEE80211Reason reason_from_bits reason_into_bits Rs_Unknown std_reason.

(** IEEE80211StatusCode: Table 9-50, status codes *)
Definition std_status : list (IEEE80211StatusCode * N) :=
  [ (St_Success, 0); (St_RefusedReasonUnspec, 1); (St_TdlsRejectedAlternativeProvided, 2);
    (St_TdlsRejected, 3); (St_SecurityDisabled, 5); (St_UnacceptableLifetime, 6);
    (St_NotInSameBss, 7); (St_RefusedCapabilitiesMismatch, 10);
    (St_DeniedNoAssociationExists, 11); (St_DeniedOtherReason, 12);
    (St_UnsupportedAuthAlgorithm, 13); (St_TransactionSequenceError, 14);
    (St_ChallengeFailure, 15); (St_RejectedSequenceTimeout, 16); (St_DeniedNoMoreStas, 17);
    (St_RefusedBasicRatesMismatch, 18); (St_DeniedNoShortPreambleSupport, 19);
    (St_RejectedSpectrumManagementRequired, 22); (St_RejectedBadPowerCapability, 23);
    (St_RejectedBadSupportedChannels, 24); (St_DeniedNoShortSlotTimeSupport, 25);
    (St_DeniedNoHtSupport, 27); (St_R0khUnreachable, 28); (St_RefusedTemporarily, 30);
    (St_RobustManagementPolicyViolation, 31); (St_UnspecifiedQosFailure, 32);
    (St_DeniedInsufficientBandwidth, 33); (St_DeniedPoorChannelConditions, 34);
    (St_DeniedQosNotSupported, 35); (St_RequestDeclined, 37); (St_InvalidParameters, 38);
    (St_RejectedWithSuggestedChanges, 39); (St_StatusInvalidElement, 40);
    (St_StatusInvalidGroupCipher, 41); (St_StatusInvalidPairwiseCipher, 42);
    (St_StatusInvalidAkmp, 43); (St_UnsupportedRsneVersion, 44);
    (St_InvalidRsneCapabilities, 45); (St_StatusCipherOutOfPolicy, 46);
    (St_RejectedForDelayPeriod, 47); (St_NotPresent, 49); (St_NotQosSta, 50);
    (St_DeniedListenIntervalTooLarge, 51); (St_StatusInvalidFtActionFrameCount, 52);
    (St_StatusInvalidPmkid, 53); (St_StatusInvalidMde, 54); (St_StatusInvalidFte, 55);
    (St_RequestedTclasNotSupported, 56); (St_InsufficientTclasProcessingResources, 57);
    (St_TryAnotherBss, 58); (St_GasAdvertisementProtocolNotSupported, 59);
    (St_NoOutstandingGasRequest, 60); (St_GasResponseNotReceivedFrom, 61);
    (St_GasQueryTimeout, 62); (St_GasQueryResponseToo, 63);
    (St_RejectedHomeWithSuggestedChanges, 64); (St_ServerUnreachable, 65);
    (St_RejectedForSspPermissions, 67); (St_RefusedUnauthenticatedAccessNotSupported, 68);
    (St_InvalidRsne, 72); (St_UApsdCoexistenceNotSupported, 73);
    (St_UApsdCoexModeNotSupported, 74); (St_BadIntervalWithUApsdCoex, 75);
    (St_AntiCloggingTokenRequired, 76); (St_UnsupportedFiniteCyclicGroup, 77);
    (St_CannotFindAlternativeTbtt, 78); (St_TransmissionFailure, 79);
    (St_RequestedTclasNotSupported2, 80); (St_TclasResourcesExhausted, 81);
    (St_RejectedWithSuggestedBssTransition, 82); (St_RejectWithSchedule, 83);
    (St_RejectNoWakeupSpecified, 84); (St_SuccessPowerSaveMode, 85);
    (St_PendingAdmittingFstSession, 86); (St_PerformingFstNow, 87);
    (St_PendingGapInBaWindow, 88); (St_RejectUpidSetting, 89); (St_RefusedExternalReason, 92);
    (St_RefusedApOutOfMemory, 93); (St_RejectedEmergencyServicesNotSupported, 94);
    (St_QueryResponseOutstanding, 95); (St_RejectDseBand, 96);
    (St_TclasProcessingTerminated, 97); (St_TsScheduleConflict, 98);
    (St_DeniedWithSuggestedBandAndChannel, 99); (St_MccaopReservationConflict, 100);
    (St_MafLimitExceeded, 101); (St_MccaTrackLimitExceeded, 102);
    (St_DeniedDueToSpectrumManagement, 103); (St_DeniedVhtNotSupported, 104);
    (St_Enablement, 105); (St_Restriction, 106); (St_Authorization, 107);
    (St_EnergyLimitedOperationNotSupported, 108); (St_RejectedNdpBlockAckSuggested, 109);
    (St_RejectedMaxAwayDurationUnacceptable, 110); (St_FlowControlOperationSupported, 111);
    (St_FilsAuthenticationFailure, 112); (St_UnknownAuthenticationServer, 113);
    (St_DeniedNotificationPeriodAllocation, 116); (St_DeniedChannelSplitting, 117);
    (St_DeniedAllocation, 118); (St_CmmgFeaturesNotSupported, 119);
    (St_GasFragmentNotAvailable, 120); (St_SuccessCagVersionsMatch, 121);
    (St_GlkNotAuthorized, 122); (St_UnknownPasswordIdentifier, 123);
    (St_DeniedLocalMacAddressPolicyViolation, 125); (St_SaeHashToElement, 126);
    (St_TclasProcessingTerminatedInsufficientQos, 128);
    (St_TclasProcessingTerminatedPolicyConflict, 129) ].
Definition enum_status : CodeEnum := Build_CodeEnum IEEE80211StatusCode status_from_bits status_into_bits St_Unknown std_status.

(** IEEE80211AuthenticationAlgorithmNumber: clause 9.4.1.1 *)
Definition std_auth_algo : list (IEEE80211AuthenticationAlgorithmNumber * N) :=
  [ (Au_OpenSystem, 0); (Au_SharedKey, 1); (Au_FastBSSTransition, 2);
    (Au_SimultaneousAuthenticationOfEquals, 3); (Au_FILSSharedKeyAuthenticationWithout, 4);
    (Au_FILSSharedKeyAuthenticationWith, 5); (Au_FILSPublicKeyAuthentication, 6);
    (Au_VendorSpecificUse, 65535) ].
Definition enum_auth_algo : CodeEnum := Build_CodeEnum IEEE80211AuthenticationAlgorithmNumber auth_algo_from_bits auth_algo_into_bits Au_Unknown std_auth_algo.

(** CategoryCode: Table 9-51 *)
Definition std_category : list (CategoryCode * N) :=
  [ (Cat_Mesh, 13); (Cat_Multihop, 14); (Cat_SelfProtected, 15); (Cat_VendorSpecific, 127) ].
Definition enum_category : CodeEnum := Build_CodeEnum CategoryCode category_from_bits category_into_bits Cat_Unknown std_category.

(** SelfProtectedActionCode: Table 9-428 *)
Definition std_self_prot : list (SelfProtectedActionCode * N) :=
  [ (Sp_MeshPeeringOpen, 1); (Sp_MeshPeeringConfirm, 2); (Sp_MeshPeeringClose, 3);
    (Sp_MeshGroupKeyInform, 4); (Sp_MeshGroupKeyAcknowledge, 5) ].
Definition enum_self_prot : CodeEnum := Build_CodeEnum SelfProtectedActionCode self_prot_from_bits self_prot_into_bits Sp_Unknown std_self_prot.

(** MeshPeeringProtocolIdentifier *)
Definition std_mesh_peering_proto : list (MeshPeeringProtocolIdentifier * N) :=
  [ (Mpp_MeshPeeringManagementProtocol, 0); (Mpp_AuthenticatedMeshPeeringExchangeProtocol, 1);
    (Mpp_VendorSpecific, 255) ].
Definition enum_mesh_peering_proto : CodeEnum := Build_CodeEnum MeshPeeringProtocolIdentifier mesh_peering_proto_from_bits mesh_peering_proto_into_bits Mpp_Unknown std_mesh_peering_proto.

(** MeshConfigurationActivePathSelectionProtocolIdentifier *)
Definition std_mesh_path_proto : list (MeshConfigurationActivePathSelectionProtocolIdentifier * N) :=
  [ (Mpsp_HWMP, 1); (Mpsp_VendorSpecific, 255) ].
Definition enum_mesh_path_proto : CodeEnum := Build_CodeEnum MeshConfigurationActivePathSelectionProtocolIdentifier mesh_path_proto_from_bits mesh_path_proto_into_bits Mpsp_Unknown std_mesh_path_proto.

(** MeshConfigurationActivePathSelectionMetricIdentifier *)
Definition std_mesh_path_metric : list (MeshConfigurationActivePathSelectionMetricIdentifier * N) :=
  [ (Mpsm_AirtimeLinkMetric, 1); (Mpsm_HighPHYRateAirtimeLinkMetric, 2);
    (Mpsm_VendorSpecific, 255) ].
Definition enum_mesh_path_metric : CodeEnum := Build_CodeEnum MeshConfigurationActivePathSelectionMetricIdentifier mesh_path_metric_from_bits mesh_path_metric_into_bits Mpsm_Unknown std_mesh_path_metric.

(** MeshConfigurationCongestionControlModeIdentifier *)
Definition std_mesh_congestion : list (MeshConfigurationCongestionControlModeIdentifier * N) :=
  [ (Mcc_NotActivated, 0); (Mcc_SignalingProtocol, 1); (Mcc_VendorSpecific, 255) ].
Definition enum_mesh_congestion : CodeEnum := Build_CodeEnum MeshConfigurationCongestionControlModeIdentifier mesh_congestion_from_bits mesh_congestion_into_bits Mcc_Unknown std_mesh_congestion.

(** MeshConfigurationSynchronizationMethodIdentifier *)
Definition std_mesh_sync : list (MeshConfigurationSynchronizationMethodIdentifier * N) :=
  [ (Msm_NeighborOffsetSynchronization, 1); (Msm_VendorSpecific, 255) ].
Definition enum_mesh_sync : CodeEnum := Build_CodeEnum MeshConfigurationSynchronizationMethodIdentifier mesh_sync_from_bits mesh_sync_into_bits Msm_Unknown std_mesh_sync.

(** MeshConfigurationAuthenticationProtocolIdentifier *)
Definition std_mesh_auth : list (MeshConfigurationAuthenticationProtocolIdentifier * N) :=
  [ (Map_NoAuthentication, 0); (Map_SAE, 1); (Map_IEEE80211XAuthentication, 2);
    (Map_VendorSpecific, 255) ].
Definition enum_mesh_auth : CodeEnum := Build_CodeEnum MeshConfigurationAuthenticationProtocolIdentifier mesh_auth_from_bits mesh_auth_into_bits Map_Unknown std_mesh_auth.

(** SecondaryChannelOffset *)
Definition std_sec_chan : list (SecondaryChannelOffset * N) :=
  [ (Sco_NotPresent, 0); (Sco_Above, 1); (Sco_Reserved, 2); (Sco_Below, 3) ].
Definition enum_sec_chan : CodeEnum := Build_CodeEnum SecondaryChannelOffset sec_chan_from_bits sec_chan_into_bits Sco_Unknown std_sec_chan.

(** HTProtectionMode *)
Definition std_ht_prot : list (HTProtectionMode * N) :=
  [ (Hpm_None, 0); (Hpm_NonMember, 1); (Hpm_TwentyMHz, 2); (Hpm_NonHTMixed, 3) ].
Definition enum_ht_prot : CodeEnum := Build_CodeEnum HTProtectionMode ht_prot_from_bits ht_prot_into_bits Hpm_Unknown std_ht_prot.

(** SmPwSave *)
Definition std_sm_pw_save : list (SmPwSave * N) :=
  [ (Sm_Static, 0); (Sm_Dynamic, 1); (Sm_Reserved, 2); (Sm_Disabled, 3) ].
Definition enum_sm_pw_save : CodeEnum := Build_CodeEnum SmPwSave sm_pw_save_from_bits sm_pw_save_into_bits Sm_Unknown std_sm_pw_save.

(** MAXAMpduLength *)
Definition std_max_ampdu : list (MAXAMpduLength * N) :=
  [ (Mal_Small, 0); (Mal_Medium, 1); (Mal_Large, 2); (Mal_VeryLarge, 3) ].
Definition enum_max_ampdu : CodeEnum := Build_CodeEnum MAXAMpduLength max_ampdu_from_bits max_ampdu_into_bits Mal_Unknown std_max_ampdu.

(** MpduDensity *)
Definition std_mpdu_density : list (MpduDensity * N) :=
  [ (Md_NoRestriction, 0); (Md_Quarter, 1); (Md_Half, 2); (Md_One, 3); (Md_Two, 4);
    (Md_Four, 5); (Md_Eight, 6); (Md_Sixteen, 7) ].
Definition enum_mpdu_density : CodeEnum := Build_CodeEnum MpduDensity mpdu_density_from_bits mpdu_density_into_bits Md_Unknown std_mpdu_density.

(** BeamformingCalibration *)
Definition std_bf_calibration : list (BeamformingCalibration * N) :=
  [ (Bc_NotSupported, 0); (Bc_CanRespondButCantInitiate, 1); (Bc_Reserved, 2);
    (Bc_CanRespondAndInitiate, 3) ].
Definition enum_bf_calibration : CodeEnum := Build_CodeEnum BeamformingCalibration bf_calibration_from_bits bf_calibration_into_bits Bc_Unknown std_bf_calibration.

(** BeamformingFeedback *)
Definition std_bf_feedback : list (BeamformingFeedback * N) :=
  [ (Bf_NotSupported, 0); (Bf_DelayedFeedback, 1); (Bf_ImmediateFeedback, 2);
    (Bf_DelayedAndImmediateFeedback, 3) ].
Definition enum_bf_feedback : CodeEnum := Build_CodeEnum BeamformingFeedback bf_feedback_from_bits bf_feedback_into_bits Bf_Unknown std_bf_feedback.

(** GroupingCapability *)
Definition std_grouping : list (GroupingCapability * N) :=
  [ (Gc_NoGrouping, 0); (Gc_GroupsOfTwo, 1); (Gc_GroupsOfFour, 2);
    (Gc_GroupsOfTwoAndFour, 3) ].
Definition enum_grouping : CodeEnum := Build_CodeEnum GroupingCapability grouping_from_bits grouping_into_bits Gc_Unknown std_grouping.

(** VHTMCSSupport *)
Definition std_vht_mcs : list (VHTMCSSupport * N) :=
  [ (Vm_ZeroToSeven, 0); (Vm_ZeroToEight, 1); (Vm_ZeroToNine, 2); (Vm_NotSupported, 3) ].
Definition enum_vht_mcs : CodeEnum := Build_CodeEnum VHTMCSSupport vht_mcs_from_bits vht_mcs_into_bits Vm_Unknown std_vht_mcs.

(** ChannelWidth *)
Definition std_channel_width : list (ChannelWidth * N) :=
  [ (Cw_TwentyOrFourtyMHz, 0); (Cw_EightyOneSixtyOrEightyPlusEightyMhz, 1); (Cw_OneSixtyMHz, 2);
    (Cw_NonContiguousEightyPlusEightyMHz, 3) ].
Definition enum_channel_width : CodeEnum := Build_CodeEnum ChannelWidth channel_width_from_bits channel_width_into_bits Cw_Unknown std_channel_width.

(** KeyDescriptorVersion: clause 12.7.2 b) 1) *)
Definition std_key_desc_version : list (KeyDescriptorVersion * N) :=
  [ (Kdv_Rc4HmacMd5, 1); (Kdv_AesHmacSha1, 2); (Kdv_AesCmac, 3) ].
Definition enum_key_desc_version : CodeEnum := Build_CodeEnum KeyDescriptorVersion key_desc_version_from_bits key_desc_version_into_bits Kdv_Unknown std_key_desc_version.

Definition all_enums : list CodeEnum :=
  [ enum_mgmt_subtype;
    enum_ctrl_subtype;
    enum_data_cf;
    enum_data_subtype;
    enum_reason;
    enum_status;
    enum_auth_algo;
    enum_category;
    enum_self_prot;
    enum_mesh_peering_proto;
    enum_mesh_path_proto;
    enum_mesh_path_metric;
    enum_mesh_congestion;
    enum_mesh_sync;
    enum_mesh_auth;
    enum_sec_chan;
    enum_ht_prot;
    enum_sm_pw_save;
    enum_max_ampdu;
    enum_mpdu_density;
    enum_bf_calibration;
    enum_bf_feedback;
    enum_grouping;
    enum_vht_mcs;
    enum_channel_width;
    enum_key_desc_version ].
