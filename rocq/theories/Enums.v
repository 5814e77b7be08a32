(** Code point enumerations: every [serializable_enum!] of the crate, transcribed from the source
    by tools/gen_enums.py (the generated file is the one that counts). The macro is the dependency
    macro-bits 0.1.5: named variants, a catch-all [Unknown], [from_bits] and [into_bits]. *)
From Coq Require Import NArith.
Local Open Scope N_scope.

(** /repo/src/common/subtypes/mgmt.rs:6-18 [ManagementFrameSubtype: u8] *)
Inductive ManagementFrameSubtype :=
| Mg_AssociationRequest
| Mg_AssociationResponse
| Mg_ProbeRequest
| Mg_ProbeResponse
| Mg_Beacon
| Mg_ATIM
| Mg_Disassociation
| Mg_Authentication
| Mg_Deauthentication
| Mg_Action
| Mg_ActionNoACK
| Mg_Unknown (n : N).
(** /repo/src/common/subtypes/mgmt.rs:7-17 [from_bits] *)
Definition mgmt_subtype_from_bits (n : N) : ManagementFrameSubtype :=
  match n with
  | 0 => Mg_AssociationRequest
  | 1 => Mg_AssociationResponse
  | 4 => Mg_ProbeRequest
  | 5 => Mg_ProbeResponse
  | 8 => Mg_Beacon
  | 9 => Mg_ATIM
  | 10 => Mg_Disassociation
  | 11 => Mg_Authentication
  | 12 => Mg_Deauthentication
  | 13 => Mg_Action
  | 14 => Mg_ActionNoACK
  | _ => Mg_Unknown n
  end.
(** /repo/src/common/subtypes/mgmt.rs:7-17 [into_bits] *)
Definition mgmt_subtype_into_bits (v : ManagementFrameSubtype) : N :=
  match v with
  | Mg_AssociationRequest => 0
  | Mg_AssociationResponse => 1
  | Mg_ProbeRequest => 4
  | Mg_ProbeResponse => 5
  | Mg_Beacon => 8
  | Mg_ATIM => 9
  | Mg_Disassociation => 10
  | Mg_Authentication => 11
  | Mg_Deauthentication => 12
  | Mg_Action => 13
  | Mg_ActionNoACK => 14
  | Mg_Unknown n => n
  end.

(** /repo/src/common/subtypes/control.rs:9-23 [ControlFrameSubtype: u8] *)
Inductive ControlFrameSubtype :=
| Ct_TACK
| Ct_BeamformingReportPoll
| Ct_VHTNDPAnnouncement
| Ct_ControlFrameExtension
| Ct_ControlWrapper
| Ct_BlockAckRequest
| Ct_BlockAck
| Ct_PSPoll
| Ct_RTS
| Ct_CTS
| Ct_Ack
| Ct_CFEnd
| Ct_CFEndAck
| Ct_Unknown (n : N).
(** /repo/src/common/subtypes/control.rs:10-22 [from_bits] *)
Definition ctrl_subtype_from_bits (n : N) : ControlFrameSubtype :=
  match n with
  | 3 => Ct_TACK
  | 4 => Ct_BeamformingReportPoll
  | 5 => Ct_VHTNDPAnnouncement
  | 6 => Ct_ControlFrameExtension
  | 7 => Ct_ControlWrapper
  | 8 => Ct_BlockAckRequest
  | 9 => Ct_BlockAck
  | 10 => Ct_PSPoll
  | 11 => Ct_RTS
  | 12 => Ct_CTS
  | 13 => Ct_Ack
  | 14 => Ct_CFEnd
  | 15 => Ct_CFEndAck
  | _ => Ct_Unknown n
  end.
(** /repo/src/common/subtypes/control.rs:10-22 [into_bits] *)
Definition ctrl_subtype_into_bits (v : ControlFrameSubtype) : N :=
  match v with
  | Ct_TACK => 3
  | Ct_BeamformingReportPoll => 4
  | Ct_VHTNDPAnnouncement => 5
  | Ct_ControlFrameExtension => 6
  | Ct_ControlWrapper => 7
  | Ct_BlockAckRequest => 8
  | Ct_BlockAck => 9
  | Ct_PSPoll => 10
  | Ct_RTS => 11
  | Ct_CTS => 12
  | Ct_Ack => 13
  | Ct_CFEnd => 14
  | Ct_CFEndAck => 15
  | Ct_Unknown n => n
  end.

(** /repo/src/common/subtypes/data.rs:7-13 [DataFrameCF: u8] *)
Inductive DataFrameCF :=
| Cf_None
| Cf_Ack
| Cf_Poll
| Cf_AckPoll
| Cf_Unknown (n : N).
(** /repo/src/common/subtypes/data.rs:9-12 [from_bits] *)
Definition data_cf_from_bits (n : N) : DataFrameCF :=
  match n with
  | 0 => Cf_None
  | 1 => Cf_Ack
  | 2 => Cf_Poll
  | 3 => Cf_AckPoll
  | _ => Cf_Unknown n
  end.
(** /repo/src/common/subtypes/data.rs:9-12 [into_bits] *)
Definition data_cf_into_bits (v : DataFrameCF) : N :=
  match v with
  | Cf_None => 0
  | Cf_Ack => 1
  | Cf_Poll => 2
  | Cf_AckPoll => 3
  | Cf_Unknown n => n
  end.

(** /repo/src/common/subtypes/data.rs:20-37 [DataFrameSubtype: u8] *)
Inductive DataFrameSubtype :=
| Dt_Data
| Dt_DataCFAck
| Dt_DataCFPoll
| Dt_DataCFAckCFPoll
| Dt_Null
| Dt_CFAck
| Dt_CFPoll
| Dt_CFAckCFPoll
| Dt_QoSData
| Dt_QoSDataCFAck
| Dt_QoSDataCFPoll
| Dt_QoSDataCFAckCFPoll
| Dt_QoSNull
| Dt_QoSCFPoll
| Dt_QoSCFAckCFPoll
| Dt_Unknown (n : N).
(** /repo/src/common/subtypes/data.rs:22-36 [from_bits] *)
Definition data_subtype_from_bits (n : N) : DataFrameSubtype :=
  match n with
  | 0 => Dt_Data
  | 1 => Dt_DataCFAck
  | 2 => Dt_DataCFPoll
  | 3 => Dt_DataCFAckCFPoll
  | 4 => Dt_Null
  | 5 => Dt_CFAck
  | 6 => Dt_CFPoll
  | 7 => Dt_CFAckCFPoll
  | 8 => Dt_QoSData
  | 9 => Dt_QoSDataCFAck
  | 10 => Dt_QoSDataCFPoll
  | 11 => Dt_QoSDataCFAckCFPoll
  | 12 => Dt_QoSNull
  | 14 => Dt_QoSCFPoll
  | 15 => Dt_QoSCFAckCFPoll
  | _ => Dt_Unknown n
  end.
(** /repo/src/common/subtypes/data.rs:22-36 [into_bits] *)
Definition data_subtype_into_bits (v : DataFrameSubtype) : N :=
  match v with
  | Dt_Data => 0
  | Dt_DataCFAck => 1
  | Dt_DataCFPoll => 2
  | Dt_DataCFAckCFPoll => 3
  | Dt_Null => 4
  | Dt_CFAck => 5
  | Dt_CFPoll => 6
  | Dt_CFAckCFPoll => 7
  | Dt_QoSData => 8
  | Dt_QoSDataCFAck => 9
  | Dt_QoSDataCFPoll => 10
  | Dt_QoSDataCFAckCFPoll => 11
  | Dt_QoSNull => 12
  | Dt_QoSCFPoll => 14
  | Dt_QoSCFAckCFPoll => 15
  | Dt_Unknown n => n
  end.

(** /repo/src/common/reason.rs:8-36 [IEEE80211Reason: u16] *)
Inductive IEEE80211Reason :=
| Rs_Unspecified
| Rs_InvalidAuthentication
| Rs_LeavingNetworkDeauth
| Rs_Inactivity
| Rs_NoMoreSTAs
| Rs_InvalidClass2Frame
| Rs_InvalidClass3Frame
| Rs_LeavingNetworkDisassoc
| Rs_MeshPeeringCancelled
| Rs_MeshMaxPeers
| Rs_MeshConfigurationPolicyViolation
| Rs_MeshCloseRcvd
| Rs_MeshMaxRetries
| Rs_MeshConfirmTimeout
| Rs_MeshInvalidGTK
| Rs_MeshInconsistentParameters
| Rs_MeshInvalidSecurityCapability
| Rs_MeshPathErrorNoProxyInformation
| Rs_MeshPathErrorNoForwardingInformation
| Rs_MeshPathErrorDestinationUnreachable
| Rs_MacAddressAlreadyExistsInMBSS
| Rs_MeshChannelSwitchRegulatoryRequirements
| Rs_MeshChannelSwitchUnspecified
| Rs_TransmissionLinkEstablishmentFailed
| Rs_AlternativeChannelOccupied
| Rs_Unknown (n : N).
(** /repo/src/common/reason.rs:10-35 [from_bits] *)
Definition reason_from_bits (n : N) : IEEE80211Reason :=
  match n with
  | 1 => Rs_Unspecified
  | 2 => Rs_InvalidAuthentication
  | 3 => Rs_LeavingNetworkDeauth
  | 4 => Rs_Inactivity
  | 5 => Rs_NoMoreSTAs
  | 6 => Rs_InvalidClass2Frame
  | 7 => Rs_InvalidClass3Frame
  | 8 => Rs_LeavingNetworkDisassoc
  | 52 => Rs_MeshPeeringCancelled
  | 53 => Rs_MeshMaxPeers
  | 54 => Rs_MeshConfigurationPolicyViolation
  | 55 => Rs_MeshCloseRcvd
  | 56 => Rs_MeshMaxRetries
  | 57 => Rs_MeshConfirmTimeout
  | 58 => Rs_MeshInvalidGTK
  | 59 => Rs_MeshInconsistentParameters
  | 60 => Rs_MeshInvalidSecurityCapability
  | 61 => Rs_MeshPathErrorNoProxyInformation
  | 62 => Rs_MeshPathErrorNoForwardingInformation
  | 63 => Rs_MeshPathErrorDestinationUnreachable
  | 64 => Rs_MacAddressAlreadyExistsInMBSS
  | 65 => Rs_MeshChannelSwitchRegulatoryRequirements
  | 66 => Rs_MeshChannelSwitchUnspecified
  | 67 => Rs_TransmissionLinkEstablishmentFailed
  | 68 => Rs_AlternativeChannelOccupied
  | _ => Rs_Unknown n
  end.
(** /repo/src/common/reason.rs:10-35 [into_bits] *)
Definition reason_into_bits (v : IEEE80211Reason) : N :=
  match v with
  | Rs_Unspecified => 1
  | Rs_InvalidAuthentication => 2
  | Rs_LeavingNetworkDeauth => 3
  | Rs_Inactivity => 4
  | Rs_NoMoreSTAs => 5
  | Rs_InvalidClass2Frame => 6
  | Rs_InvalidClass3Frame => 7
  | Rs_LeavingNetworkDisassoc => 8
  | Rs_MeshPeeringCancelled => 52
  | Rs_MeshMaxPeers => 53
  | Rs_MeshConfigurationPolicyViolation => 54
  | Rs_MeshCloseRcvd => 55
  | Rs_MeshMaxRetries => 56
  | Rs_MeshConfirmTimeout => 57
  | Rs_MeshInvalidGTK => 58
  | Rs_MeshInconsistentParameters => 59
  | Rs_MeshInvalidSecurityCapability => 60
  | Rs_MeshPathErrorNoProxyInformation => 61
  | Rs_MeshPathErrorNoForwardingInformation => 62
  | Rs_MeshPathErrorDestinationUnreachable => 63
  | Rs_MacAddressAlreadyExistsInMBSS => 64
  | Rs_MeshChannelSwitchRegulatoryRequirements => 65
  | Rs_MeshChannelSwitchUnspecified => 66
  | Rs_TransmissionLinkEstablishmentFailed => 67
  | Rs_AlternativeChannelOccupied => 68
  | Rs_Unknown n => n
  end.

(** /repo/src/common/status_code.rs:8-121 [IEEE80211StatusCode: u16] *)
Inductive IEEE80211StatusCode :=
| St_Success
| St_RefusedReasonUnspec
| St_TdlsRejectedAlternativeProvided
| St_TdlsRejected
| St_SecurityDisabled
| St_UnacceptableLifetime
| St_NotInSameBss
| St_RefusedCapabilitiesMismatch
| St_DeniedNoAssociationExists
| St_DeniedOtherReason
| St_UnsupportedAuthAlgorithm
| St_TransactionSequenceError
| St_ChallengeFailure
| St_RejectedSequenceTimeout
| St_DeniedNoMoreStas
| St_RefusedBasicRatesMismatch
| St_DeniedNoShortPreambleSupport
| St_RejectedSpectrumManagementRequired
| St_RejectedBadPowerCapability
| St_RejectedBadSupportedChannels
| St_DeniedNoShortSlotTimeSupport
| St_DeniedNoHtSupport
| St_R0khUnreachable
| St_RefusedTemporarily
| St_RobustManagementPolicyViolation
| St_UnspecifiedQosFailure
| St_DeniedInsufficientBandwidth
| St_DeniedPoorChannelConditions
| St_DeniedQosNotSupported
| St_RequestDeclined
| St_InvalidParameters
| St_RejectedWithSuggestedChanges
| St_StatusInvalidElement
| St_StatusInvalidGroupCipher
| St_StatusInvalidPairwiseCipher
| St_StatusInvalidAkmp
| St_UnsupportedRsneVersion
| St_InvalidRsneCapabilities
| St_StatusCipherOutOfPolicy
| St_RejectedForDelayPeriod
| St_NotPresent
| St_NotQosSta
| St_DeniedListenIntervalTooLarge
| St_StatusInvalidFtActionFrameCount
| St_StatusInvalidPmkid
| St_StatusInvalidMde
| St_StatusInvalidFte
| St_RequestedTclasNotSupported
| St_InsufficientTclasProcessingResources
| St_TryAnotherBss
| St_GasAdvertisementProtocolNotSupported
| St_NoOutstandingGasRequest
| St_GasResponseNotReceivedFrom
| St_GasQueryTimeout
| St_GasQueryResponseToo
| St_RejectedHomeWithSuggestedChanges
| St_ServerUnreachable
| St_RejectedForSspPermissions
| St_RefusedUnauthenticatedAccessNotSupported
| St_InvalidRsne
| St_UApsdCoexistenceNotSupported
| St_UApsdCoexModeNotSupported
| St_BadIntervalWithUApsdCoex
| St_AntiCloggingTokenRequired
| St_UnsupportedFiniteCyclicGroup
| St_CannotFindAlternativeTbtt
| St_TransmissionFailure
| St_RequestedTclasNotSupported2
| St_TclasResourcesExhausted
| St_RejectedWithSuggestedBssTransition
| St_RejectWithSchedule
| St_RejectNoWakeupSpecified
| St_SuccessPowerSaveMode
| St_PendingAdmittingFstSession
| St_PerformingFstNow
| St_PendingGapInBaWindow
| St_RejectUpidSetting
| St_RefusedExternalReason
| St_RefusedApOutOfMemory
| St_RejectedEmergencyServicesNotSupported
| St_QueryResponseOutstanding
| St_RejectDseBand
| St_TclasProcessingTerminated
| St_TsScheduleConflict
| St_DeniedWithSuggestedBandAndChannel
| St_MccaopReservationConflict
| St_MafLimitExceeded
| St_MccaTrackLimitExceeded
| St_DeniedDueToSpectrumManagement
| St_DeniedVhtNotSupported
| St_Enablement
| St_Restriction
| St_Authorization
| St_EnergyLimitedOperationNotSupported
| St_RejectedNdpBlockAckSuggested
| St_RejectedMaxAwayDurationUnacceptable
| St_FlowControlOperationSupported
| St_FilsAuthenticationFailure
| St_UnknownAuthenticationServer
| St_DeniedNotificationPeriodAllocation
| St_DeniedChannelSplitting
| St_DeniedAllocation
| St_CmmgFeaturesNotSupported
| St_GasFragmentNotAvailable
| St_SuccessCagVersionsMatch
| St_GlkNotAuthorized
| St_UnknownPasswordIdentifier
| St_DeniedLocalMacAddressPolicyViolation
| St_SaeHashToElement
| St_TclasProcessingTerminatedInsufficientQos
| St_TclasProcessingTerminatedPolicyConflict
| St_Unknown (n : N).
(** /repo/src/common/status_code.rs:10-120 [from_bits] *)
Definition status_from_bits (n : N) : IEEE80211StatusCode :=
  match n with
  | 0 => St_Success
  | 1 => St_RefusedReasonUnspec
  | 2 => St_TdlsRejectedAlternativeProvided
  | 3 => St_TdlsRejected
  | 5 => St_SecurityDisabled
  | 6 => St_UnacceptableLifetime
  | 7 => St_NotInSameBss
  | 10 => St_RefusedCapabilitiesMismatch
  | 11 => St_DeniedNoAssociationExists
  | 12 => St_DeniedOtherReason
  | 13 => St_UnsupportedAuthAlgorithm
  | 14 => St_TransactionSequenceError
  | 15 => St_ChallengeFailure
  | 16 => St_RejectedSequenceTimeout
  | 17 => St_DeniedNoMoreStas
  | 18 => St_RefusedBasicRatesMismatch
  | 19 => St_DeniedNoShortPreambleSupport
  | 22 => St_RejectedSpectrumManagementRequired
  | 23 => St_RejectedBadPowerCapability
  | 24 => St_RejectedBadSupportedChannels
  | 25 => St_DeniedNoShortSlotTimeSupport
  | 27 => St_DeniedNoHtSupport
  | 28 => St_R0khUnreachable
  | 30 => St_RefusedTemporarily
  | 31 => St_RobustManagementPolicyViolation
  | 32 => St_UnspecifiedQosFailure
  | 33 => St_DeniedInsufficientBandwidth
  | 34 => St_DeniedPoorChannelConditions
  | 35 => St_DeniedQosNotSupported
  | 37 => St_RequestDeclined
  | 38 => St_InvalidParameters
  | 39 => St_RejectedWithSuggestedChanges
  | 40 => St_StatusInvalidElement
  | 41 => St_StatusInvalidGroupCipher
  | 42 => St_StatusInvalidPairwiseCipher
  | 43 => St_StatusInvalidAkmp
  | 44 => St_UnsupportedRsneVersion
  | 45 => St_InvalidRsneCapabilities
  | 46 => St_StatusCipherOutOfPolicy
  | 47 => St_RejectedForDelayPeriod
  | 49 => St_NotPresent
  | 50 => St_NotQosSta
  | 51 => St_DeniedListenIntervalTooLarge
  | 52 => St_StatusInvalidFtActionFrameCount
  | 53 => St_StatusInvalidPmkid
  | 54 => St_StatusInvalidMde
  | 55 => St_StatusInvalidFte
  | 56 => St_RequestedTclasNotSupported
  | 57 => St_InsufficientTclasProcessingResources
  | 58 => St_TryAnotherBss
  | 59 => St_GasAdvertisementProtocolNotSupported
  | 60 => St_NoOutstandingGasRequest
  | 61 => St_GasResponseNotReceivedFrom
  | 62 => St_GasQueryTimeout
  | 63 => St_GasQueryResponseToo
  | 64 => St_RejectedHomeWithSuggestedChanges
  | 65 => St_ServerUnreachable
  | 67 => St_RejectedForSspPermissions
  | 68 => St_RefusedUnauthenticatedAccessNotSupported
  | 72 => St_InvalidRsne
  | 73 => St_UApsdCoexistenceNotSupported
  | 74 => St_UApsdCoexModeNotSupported
  | 75 => St_BadIntervalWithUApsdCoex
  | 76 => St_AntiCloggingTokenRequired
  | 77 => St_UnsupportedFiniteCyclicGroup
  | 78 => St_CannotFindAlternativeTbtt
  | 79 => St_TransmissionFailure
  | 80 => St_RequestedTclasNotSupported2
  | 81 => St_TclasResourcesExhausted
  | 82 => St_RejectedWithSuggestedBssTransition
  | 83 => St_RejectWithSchedule
  | 84 => St_RejectNoWakeupSpecified
  | 85 => St_SuccessPowerSaveMode
  | 86 => St_PendingAdmittingFstSession
  | 87 => St_PerformingFstNow
  | 88 => St_PendingGapInBaWindow
  | 89 => St_RejectUpidSetting
  | 92 => St_RefusedExternalReason
  | 93 => St_RefusedApOutOfMemory
  | 94 => St_RejectedEmergencyServicesNotSupported
  | 95 => St_QueryResponseOutstanding
  | 96 => St_RejectDseBand
  | 97 => St_TclasProcessingTerminated
  | 98 => St_TsScheduleConflict
  | 99 => St_DeniedWithSuggestedBandAndChannel
  | 100 => St_MccaopReservationConflict
  | 101 => St_MafLimitExceeded
  | 102 => St_MccaTrackLimitExceeded
  | 103 => St_DeniedDueToSpectrumManagement
  | 104 => St_DeniedVhtNotSupported
  | 105 => St_Enablement
  | 106 => St_Restriction
  | 107 => St_Authorization
  | 108 => St_EnergyLimitedOperationNotSupported
  | 109 => St_RejectedNdpBlockAckSuggested
  | 110 => St_RejectedMaxAwayDurationUnacceptable
  | 111 => St_FlowControlOperationSupported
  | 112 => St_FilsAuthenticationFailure
  | 113 => St_UnknownAuthenticationServer
  | 116 => St_DeniedNotificationPeriodAllocation
  | 117 => St_DeniedChannelSplitting
  | 118 => St_DeniedAllocation
  | 119 => St_CmmgFeaturesNotSupported
  | 120 => St_GasFragmentNotAvailable
  | 121 => St_SuccessCagVersionsMatch
  | 122 => St_GlkNotAuthorized
  | 123 => St_UnknownPasswordIdentifier
  | 125 => St_DeniedLocalMacAddressPolicyViolation
  | 126 => St_SaeHashToElement
  | 128 => St_TclasProcessingTerminatedInsufficientQos
  | 129 => St_TclasProcessingTerminatedPolicyConflict
  | _ => St_Unknown n
  end.
(** /repo/src/common/status_code.rs:10-120 [into_bits] *)
Definition status_into_bits (v : IEEE80211StatusCode) : N :=
  match v with
  | St_Success => 0
  | St_RefusedReasonUnspec => 1
  | St_TdlsRejectedAlternativeProvided => 2
  | St_TdlsRejected => 3
  | St_SecurityDisabled => 5
  | St_UnacceptableLifetime => 6
  | St_NotInSameBss => 7
  | St_RefusedCapabilitiesMismatch => 10
  | St_DeniedNoAssociationExists => 11
  | St_DeniedOtherReason => 12
  | St_UnsupportedAuthAlgorithm => 13
  | St_TransactionSequenceError => 14
  | St_ChallengeFailure => 15
  | St_RejectedSequenceTimeout => 16
  | St_DeniedNoMoreStas => 17
  | St_RefusedBasicRatesMismatch => 18
  | St_DeniedNoShortPreambleSupport => 19
  | St_RejectedSpectrumManagementRequired => 22
  | St_RejectedBadPowerCapability => 23
  | St_RejectedBadSupportedChannels => 24
  | St_DeniedNoShortSlotTimeSupport => 25
  | St_DeniedNoHtSupport => 27
  | St_R0khUnreachable => 28
  | St_RefusedTemporarily => 30
  | St_RobustManagementPolicyViolation => 31
  | St_UnspecifiedQosFailure => 32
  | St_DeniedInsufficientBandwidth => 33
  | St_DeniedPoorChannelConditions => 34
  | St_DeniedQosNotSupported => 35
  | St_RequestDeclined => 37
  | St_InvalidParameters => 38
  | St_RejectedWithSuggestedChanges => 39
  | St_StatusInvalidElement => 40
  | St_StatusInvalidGroupCipher => 41
  | St_StatusInvalidPairwiseCipher => 42
  | St_StatusInvalidAkmp => 43
  | St_UnsupportedRsneVersion => 44
  | St_InvalidRsneCapabilities => 45
  | St_StatusCipherOutOfPolicy => 46
  | St_RejectedForDelayPeriod => 47
  | St_NotPresent => 49
  | St_NotQosSta => 50
  | St_DeniedListenIntervalTooLarge => 51
  | St_StatusInvalidFtActionFrameCount => 52
  | St_StatusInvalidPmkid => 53
  | St_StatusInvalidMde => 54
  | St_StatusInvalidFte => 55
  | St_RequestedTclasNotSupported => 56
  | St_InsufficientTclasProcessingResources => 57
  | St_TryAnotherBss => 58
  | St_GasAdvertisementProtocolNotSupported => 59
  | St_NoOutstandingGasRequest => 60
  | St_GasResponseNotReceivedFrom => 61
  | St_GasQueryTimeout => 62
  | St_GasQueryResponseToo => 63
  | St_RejectedHomeWithSuggestedChanges => 64
  | St_ServerUnreachable => 65
  | St_RejectedForSspPermissions => 67
  | St_RefusedUnauthenticatedAccessNotSupported => 68
  | St_InvalidRsne => 72
  | St_UApsdCoexistenceNotSupported => 73
  | St_UApsdCoexModeNotSupported => 74
  | St_BadIntervalWithUApsdCoex => 75
  | St_AntiCloggingTokenRequired => 76
  | St_UnsupportedFiniteCyclicGroup => 77
  | St_CannotFindAlternativeTbtt => 78
  | St_TransmissionFailure => 79
  | St_RequestedTclasNotSupported2 => 80
  | St_TclasResourcesExhausted => 81
  | St_RejectedWithSuggestedBssTransition => 82
  | St_RejectWithSchedule => 83
  | St_RejectNoWakeupSpecified => 84
  | St_SuccessPowerSaveMode => 85
  | St_PendingAdmittingFstSession => 86
  | St_PerformingFstNow => 87
  | St_PendingGapInBaWindow => 88
  | St_RejectUpidSetting => 89
  | St_RefusedExternalReason => 92
  | St_RefusedApOutOfMemory => 93
  | St_RejectedEmergencyServicesNotSupported => 94
  | St_QueryResponseOutstanding => 95
  | St_RejectDseBand => 96
  | St_TclasProcessingTerminated => 97
  | St_TsScheduleConflict => 98
  | St_DeniedWithSuggestedBandAndChannel => 99
  | St_MccaopReservationConflict => 100
  | St_MafLimitExceeded => 101
  | St_MccaTrackLimitExceeded => 102
  | St_DeniedDueToSpectrumManagement => 103
  | St_DeniedVhtNotSupported => 104
  | St_Enablement => 105
  | St_Restriction => 106
  | St_Authorization => 107
  | St_EnergyLimitedOperationNotSupported => 108
  | St_RejectedNdpBlockAckSuggested => 109
  | St_RejectedMaxAwayDurationUnacceptable => 110
  | St_FlowControlOperationSupported => 111
  | St_FilsAuthenticationFailure => 112
  | St_UnknownAuthenticationServer => 113
  | St_DeniedNotificationPeriodAllocation => 116
  | St_DeniedChannelSplitting => 117
  | St_DeniedAllocation => 118
  | St_CmmgFeaturesNotSupported => 119
  | St_GasFragmentNotAvailable => 120
  | St_SuccessCagVersionsMatch => 121
  | St_GlkNotAuthorized => 122
  | St_UnknownPasswordIdentifier => 123
  | St_DeniedLocalMacAddressPolicyViolation => 125
  | St_SaeHashToElement => 126
  | St_TclasProcessingTerminatedInsufficientQos => 128
  | St_TclasProcessingTerminatedPolicyConflict => 129
  | St_Unknown n => n
  end.

(** /repo/src/common/auth_algo_num.rs:7-17 [IEEE80211AuthenticationAlgorithmNumber: u16] *)
Inductive IEEE80211AuthenticationAlgorithmNumber :=
| Au_OpenSystem
| Au_SharedKey
| Au_FastBSSTransition
| Au_SimultaneousAuthenticationOfEquals
| Au_FILSSharedKeyAuthenticationWithout
| Au_FILSSharedKeyAuthenticationWith
| Au_FILSPublicKeyAuthentication
| Au_VendorSpecificUse
| Au_Unknown (n : N).
(** /repo/src/common/auth_algo_num.rs:9-16 [from_bits] *)
Definition auth_algo_from_bits (n : N) : IEEE80211AuthenticationAlgorithmNumber :=
  match n with
  | 0 => Au_OpenSystem
  | 1 => Au_SharedKey
  | 2 => Au_FastBSSTransition
  | 3 => Au_SimultaneousAuthenticationOfEquals
  | 4 => Au_FILSSharedKeyAuthenticationWithout
  | 5 => Au_FILSSharedKeyAuthenticationWith
  | 6 => Au_FILSPublicKeyAuthentication
  | 65535 => Au_VendorSpecificUse
  | _ => Au_Unknown n
  end.
(** /repo/src/common/auth_algo_num.rs:9-16 [into_bits] *)
Definition auth_algo_into_bits (v : IEEE80211AuthenticationAlgorithmNumber) : N :=
  match v with
  | Au_OpenSystem => 0
  | Au_SharedKey => 1
  | Au_FastBSSTransition => 2
  | Au_SimultaneousAuthenticationOfEquals => 3
  | Au_FILSSharedKeyAuthenticationWithout => 4
  | Au_FILSSharedKeyAuthenticationWith => 5
  | Au_FILSPublicKeyAuthentication => 6
  | Au_VendorSpecificUse => 65535
  | Au_Unknown n => n
  end.

(** /repo/src/frames/mgmt_frame/body/action/mod.rs:33-40 [CategoryCode: u8] *)
Inductive CategoryCode :=
| Cat_Mesh
| Cat_Multihop
| Cat_SelfProtected
| Cat_VendorSpecific
| Cat_Unknown (n : N).
(** /repo/src/frames/mgmt_frame/body/action/mod.rs:34-39 [from_bits] *)
Definition category_from_bits (n : N) : CategoryCode :=
  match n with
  | 13 => Cat_Mesh
  | 14 => Cat_Multihop
  | 15 => Cat_SelfProtected
  | 127 => Cat_VendorSpecific
  | _ => Cat_Unknown n
  end.
(** /repo/src/frames/mgmt_frame/body/action/mod.rs:34-39 [into_bits] *)
Definition category_into_bits (v : CategoryCode) : N :=
  match v with
  | Cat_Mesh => 13
  | Cat_Multihop => 14
  | Cat_SelfProtected => 15
  | Cat_VendorSpecific => 127
  | Cat_Unknown n => n
  end.

(** /repo/src/frames/mgmt_frame/body/action/self_protected.rs:19-25 [SelfProtectedActionCode: u8] *)
Inductive SelfProtectedActionCode :=
| Sp_MeshPeeringOpen
| Sp_MeshPeeringConfirm
| Sp_MeshPeeringClose
| Sp_MeshGroupKeyInform
| Sp_MeshGroupKeyAcknowledge
| Sp_Unknown (n : N).
(** /repo/src/frames/mgmt_frame/body/action/self_protected.rs:20-24 [from_bits] *)
Definition self_prot_from_bits (n : N) : SelfProtectedActionCode :=
  match n with
  | 1 => Sp_MeshPeeringOpen
  | 2 => Sp_MeshPeeringConfirm
  | 3 => Sp_MeshPeeringClose
  | 4 => Sp_MeshGroupKeyInform
  | 5 => Sp_MeshGroupKeyAcknowledge
  | _ => Sp_Unknown n
  end.
(** /repo/src/frames/mgmt_frame/body/action/self_protected.rs:20-24 [into_bits] *)
Definition self_prot_into_bits (v : SelfProtectedActionCode) : N :=
  match v with
  | Sp_MeshPeeringOpen => 1
  | Sp_MeshPeeringConfirm => 2
  | Sp_MeshPeeringClose => 3
  | Sp_MeshGroupKeyInform => 4
  | Sp_MeshGroupKeyAcknowledge => 5
  | Sp_Unknown n => n
  end.

(** /repo/src/elements/mesh/mesh_peering_management.rs:16-20 [MeshPeeringProtocolIdentifier: u16] *)
Inductive MeshPeeringProtocolIdentifier :=
| Mpp_MeshPeeringManagementProtocol
| Mpp_AuthenticatedMeshPeeringExchangeProtocol
| Mpp_VendorSpecific
| Mpp_Unknown (n : N).
(** /repo/src/elements/mesh/mesh_peering_management.rs:17-19 [from_bits] *)
Definition mesh_peering_proto_from_bits (n : N) : MeshPeeringProtocolIdentifier :=
  match n with
  | 0 => Mpp_MeshPeeringManagementProtocol
  | 1 => Mpp_AuthenticatedMeshPeeringExchangeProtocol
  | 255 => Mpp_VendorSpecific
  | _ => Mpp_Unknown n
  end.
(** /repo/src/elements/mesh/mesh_peering_management.rs:17-19 [into_bits] *)
Definition mesh_peering_proto_into_bits (v : MeshPeeringProtocolIdentifier) : N :=
  match v with
  | Mpp_MeshPeeringManagementProtocol => 0
  | Mpp_AuthenticatedMeshPeeringExchangeProtocol => 1
  | Mpp_VendorSpecific => 255
  | Mpp_Unknown n => n
  end.

(** /repo/src/elements/mesh/mesh_configuration.rs:15-19 [MeshConfigurationActivePathSelectionProtocolIdentifier: u8] *)
Inductive MeshConfigurationActivePathSelectionProtocolIdentifier :=
| Mpsp_HWMP
| Mpsp_VendorSpecific
| Mpsp_Unknown (n : N).
(** /repo/src/elements/mesh/mesh_configuration.rs:17-18 [from_bits] *)
Definition mesh_path_proto_from_bits (n : N) : MeshConfigurationActivePathSelectionProtocolIdentifier :=
  match n with
  | 1 => Mpsp_HWMP
  | 255 => Mpsp_VendorSpecific
  | _ => Mpsp_Unknown n
  end.
(** /repo/src/elements/mesh/mesh_configuration.rs:17-18 [into_bits] *)
Definition mesh_path_proto_into_bits (v : MeshConfigurationActivePathSelectionProtocolIdentifier) : N :=
  match v with
  | Mpsp_HWMP => 1
  | Mpsp_VendorSpecific => 255
  | Mpsp_Unknown n => n
  end.

(** /repo/src/elements/mesh/mesh_configuration.rs:25-30 [MeshConfigurationActivePathSelectionMetricIdentifier: u8] *)
Inductive MeshConfigurationActivePathSelectionMetricIdentifier :=
| Mpsm_AirtimeLinkMetric
| Mpsm_HighPHYRateAirtimeLinkMetric
| Mpsm_VendorSpecific
| Mpsm_Unknown (n : N).
(** /repo/src/elements/mesh/mesh_configuration.rs:27-29 [from_bits] *)
Definition mesh_path_metric_from_bits (n : N) : MeshConfigurationActivePathSelectionMetricIdentifier :=
  match n with
  | 1 => Mpsm_AirtimeLinkMetric
  | 2 => Mpsm_HighPHYRateAirtimeLinkMetric
  | 255 => Mpsm_VendorSpecific
  | _ => Mpsm_Unknown n
  end.
(** /repo/src/elements/mesh/mesh_configuration.rs:27-29 [into_bits] *)
Definition mesh_path_metric_into_bits (v : MeshConfigurationActivePathSelectionMetricIdentifier) : N :=
  match v with
  | Mpsm_AirtimeLinkMetric => 1
  | Mpsm_HighPHYRateAirtimeLinkMetric => 2
  | Mpsm_VendorSpecific => 255
  | Mpsm_Unknown n => n
  end.

(** /repo/src/elements/mesh/mesh_configuration.rs:36-41 [MeshConfigurationCongestionControlModeIdentifier: u8] *)
Inductive MeshConfigurationCongestionControlModeIdentifier :=
| Mcc_NotActivated
| Mcc_SignalingProtocol
| Mcc_VendorSpecific
| Mcc_Unknown (n : N).
(** /repo/src/elements/mesh/mesh_configuration.rs:38-40 [from_bits] *)
Definition mesh_congestion_from_bits (n : N) : MeshConfigurationCongestionControlModeIdentifier :=
  match n with
  | 0 => Mcc_NotActivated
  | 1 => Mcc_SignalingProtocol
  | 255 => Mcc_VendorSpecific
  | _ => Mcc_Unknown n
  end.
(** /repo/src/elements/mesh/mesh_configuration.rs:38-40 [into_bits] *)
Definition mesh_congestion_into_bits (v : MeshConfigurationCongestionControlModeIdentifier) : N :=
  match v with
  | Mcc_NotActivated => 0
  | Mcc_SignalingProtocol => 1
  | Mcc_VendorSpecific => 255
  | Mcc_Unknown n => n
  end.

(** /repo/src/elements/mesh/mesh_configuration.rs:47-51 [MeshConfigurationSynchronizationMethodIdentifier: u8] *)
Inductive MeshConfigurationSynchronizationMethodIdentifier :=
| Msm_NeighborOffsetSynchronization
| Msm_VendorSpecific
| Msm_Unknown (n : N).
(** /repo/src/elements/mesh/mesh_configuration.rs:49-50 [from_bits] *)
Definition mesh_sync_from_bits (n : N) : MeshConfigurationSynchronizationMethodIdentifier :=
  match n with
  | 1 => Msm_NeighborOffsetSynchronization
  | 255 => Msm_VendorSpecific
  | _ => Msm_Unknown n
  end.
(** /repo/src/elements/mesh/mesh_configuration.rs:49-50 [into_bits] *)
Definition mesh_sync_into_bits (v : MeshConfigurationSynchronizationMethodIdentifier) : N :=
  match v with
  | Msm_NeighborOffsetSynchronization => 1
  | Msm_VendorSpecific => 255
  | Msm_Unknown n => n
  end.

(** /repo/src/elements/mesh/mesh_configuration.rs:57-63 [MeshConfigurationAuthenticationProtocolIdentifier: u8] *)
Inductive MeshConfigurationAuthenticationProtocolIdentifier :=
| Map_NoAuthentication
| Map_SAE
| Map_IEEE80211XAuthentication
| Map_VendorSpecific
| Map_Unknown (n : N).
(** /repo/src/elements/mesh/mesh_configuration.rs:59-62 [from_bits] *)
Definition mesh_auth_from_bits (n : N) : MeshConfigurationAuthenticationProtocolIdentifier :=
  match n with
  | 0 => Map_NoAuthentication
  | 1 => Map_SAE
  | 2 => Map_IEEE80211XAuthentication
  | 255 => Map_VendorSpecific
  | _ => Map_Unknown n
  end.
(** /repo/src/elements/mesh/mesh_configuration.rs:59-62 [into_bits] *)
Definition mesh_auth_into_bits (v : MeshConfigurationAuthenticationProtocolIdentifier) : N :=
  match v with
  | Map_NoAuthentication => 0
  | Map_SAE => 1
  | Map_IEEE80211XAuthentication => 2
  | Map_VendorSpecific => 255
  | Map_Unknown n => n
  end.

(** /repo/src/elements/ht/operation.rs:24-33 [SecondaryChannelOffset: u8] *)
Inductive SecondaryChannelOffset :=
| Sco_NotPresent
| Sco_Above
| Sco_Reserved
| Sco_Below
| Sco_Unknown (n : N).
(** /repo/src/elements/ht/operation.rs:27-32 [from_bits] *)
Definition sec_chan_from_bits (n : N) : SecondaryChannelOffset :=
  match n with
  | 0 => Sco_NotPresent
  | 1 => Sco_Above
  | 2 => Sco_Reserved
  | 3 => Sco_Below
  | _ => Sco_Unknown n
  end.
(** /repo/src/elements/ht/operation.rs:27-32 [into_bits] *)
Definition sec_chan_into_bits (v : SecondaryChannelOffset) : N :=
  match v with
  | Sco_NotPresent => 0
  | Sco_Above => 1
  | Sco_Reserved => 2
  | Sco_Below => 3
  | Sco_Unknown n => n
  end.

(** /repo/src/elements/ht/operation.rs:39-49 [HTProtectionMode: u8] *)
Inductive HTProtectionMode :=
| Hpm_None
| Hpm_NonMember
| Hpm_TwentyMHz
| Hpm_NonHTMixed
| Hpm_Unknown (n : N).
(** /repo/src/elements/ht/operation.rs:42-48 [from_bits] *)
Definition ht_prot_from_bits (n : N) : HTProtectionMode :=
  match n with
  | 0 => Hpm_None
  | 1 => Hpm_NonMember
  | 2 => Hpm_TwentyMHz
  | 3 => Hpm_NonHTMixed
  | _ => Hpm_Unknown n
  end.
(** /repo/src/elements/ht/operation.rs:42-48 [into_bits] *)
Definition ht_prot_into_bits (v : HTProtectionMode) : N :=
  match v with
  | Hpm_None => 0
  | Hpm_NonMember => 1
  | Hpm_TwentyMHz => 2
  | Hpm_NonHTMixed => 3
  | Hpm_Unknown n => n
  end.

(** /repo/src/elements/ht/capabilities.rs:16-22 [SmPwSave: u8] *)
Inductive SmPwSave :=
| Sm_Static
| Sm_Dynamic
| Sm_Reserved
| Sm_Disabled
| Sm_Unknown (n : N).
(** /repo/src/elements/ht/capabilities.rs:17-21 [from_bits] *)
Definition sm_pw_save_from_bits (n : N) : SmPwSave :=
  match n with
  | 0 => Sm_Static
  | 1 => Sm_Dynamic
  | 2 => Sm_Reserved
  | 3 => Sm_Disabled
  | _ => Sm_Unknown n
  end.
(** /repo/src/elements/ht/capabilities.rs:17-21 [into_bits] *)
Definition sm_pw_save_into_bits (v : SmPwSave) : N :=
  match v with
  | Sm_Static => 0
  | Sm_Dynamic => 1
  | Sm_Reserved => 2
  | Sm_Disabled => 3
  | Sm_Unknown n => n
  end.

(** /repo/src/elements/ht/capabilities.rs:72-82 [MAXAMpduLength: u8] *)
Inductive MAXAMpduLength :=
| Mal_Small
| Mal_Medium
| Mal_Large
| Mal_VeryLarge
| Mal_Unknown (n : N).
(** /repo/src/elements/ht/capabilities.rs:75-81 [from_bits] *)
Definition max_ampdu_from_bits (n : N) : MAXAMpduLength :=
  match n with
  | 0 => Mal_Small
  | 1 => Mal_Medium
  | 2 => Mal_Large
  | 3 => Mal_VeryLarge
  | _ => Mal_Unknown n
  end.
(** /repo/src/elements/ht/capabilities.rs:75-81 [into_bits] *)
Definition max_ampdu_into_bits (v : MAXAMpduLength) : N :=
  match v with
  | Mal_Small => 0
  | Mal_Medium => 1
  | Mal_Large => 2
  | Mal_VeryLarge => 3
  | Mal_Unknown n => n
  end.

(** /repo/src/elements/ht/capabilities.rs:89-99 [MpduDensity: u8] *)
Inductive MpduDensity :=
| Md_NoRestriction
| Md_Quarter
| Md_Half
| Md_One
| Md_Two
| Md_Four
| Md_Eight
| Md_Sixteen
| Md_Unknown (n : N).
(** /repo/src/elements/ht/capabilities.rs:91-98 [from_bits] *)
Definition mpdu_density_from_bits (n : N) : MpduDensity :=
  match n with
  | 0 => Md_NoRestriction
  | 1 => Md_Quarter
  | 2 => Md_Half
  | 3 => Md_One
  | 4 => Md_Two
  | 5 => Md_Four
  | 6 => Md_Eight
  | 7 => Md_Sixteen
  | _ => Md_Unknown n
  end.
(** /repo/src/elements/ht/capabilities.rs:91-98 [into_bits] *)
Definition mpdu_density_into_bits (v : MpduDensity) : N :=
  match v with
  | Md_NoRestriction => 0
  | Md_Quarter => 1
  | Md_Half => 2
  | Md_One => 3
  | Md_Two => 4
  | Md_Four => 5
  | Md_Eight => 6
  | Md_Sixteen => 7
  | Md_Unknown n => n
  end.

(** /repo/src/elements/ht/capabilities.rs:136-142 [BeamformingCalibration: u8] *)
Inductive BeamformingCalibration :=
| Bc_NotSupported
| Bc_CanRespondButCantInitiate
| Bc_Reserved
| Bc_CanRespondAndInitiate
| Bc_Unknown (n : N).
(** /repo/src/elements/ht/capabilities.rs:138-141 [from_bits] *)
Definition bf_calibration_from_bits (n : N) : BeamformingCalibration :=
  match n with
  | 0 => Bc_NotSupported
  | 1 => Bc_CanRespondButCantInitiate
  | 2 => Bc_Reserved
  | 3 => Bc_CanRespondAndInitiate
  | _ => Bc_Unknown n
  end.
(** /repo/src/elements/ht/capabilities.rs:138-141 [into_bits] *)
Definition bf_calibration_into_bits (v : BeamformingCalibration) : N :=
  match v with
  | Bc_NotSupported => 0
  | Bc_CanRespondButCantInitiate => 1
  | Bc_Reserved => 2
  | Bc_CanRespondAndInitiate => 3
  | Bc_Unknown n => n
  end.

(** /repo/src/elements/ht/capabilities.rs:148-154 [BeamformingFeedback: u8] *)
Inductive BeamformingFeedback :=
| Bf_NotSupported
| Bf_DelayedFeedback
| Bf_ImmediateFeedback
| Bf_DelayedAndImmediateFeedback
| Bf_Unknown (n : N).
(** /repo/src/elements/ht/capabilities.rs:150-153 [from_bits] *)
Definition bf_feedback_from_bits (n : N) : BeamformingFeedback :=
  match n with
  | 0 => Bf_NotSupported
  | 1 => Bf_DelayedFeedback
  | 2 => Bf_ImmediateFeedback
  | 3 => Bf_DelayedAndImmediateFeedback
  | _ => Bf_Unknown n
  end.
(** /repo/src/elements/ht/capabilities.rs:150-153 [into_bits] *)
Definition bf_feedback_into_bits (v : BeamformingFeedback) : N :=
  match v with
  | Bf_NotSupported => 0
  | Bf_DelayedFeedback => 1
  | Bf_ImmediateFeedback => 2
  | Bf_DelayedAndImmediateFeedback => 3
  | Bf_Unknown n => n
  end.

(** /repo/src/elements/ht/capabilities.rs:160-166 [GroupingCapability: u8] *)
Inductive GroupingCapability :=
| Gc_NoGrouping
| Gc_GroupsOfTwo
| Gc_GroupsOfFour
| Gc_GroupsOfTwoAndFour
| Gc_Unknown (n : N).
(** /repo/src/elements/ht/capabilities.rs:162-165 [from_bits] *)
Definition grouping_from_bits (n : N) : GroupingCapability :=
  match n with
  | 0 => Gc_NoGrouping
  | 1 => Gc_GroupsOfTwo
  | 2 => Gc_GroupsOfFour
  | 3 => Gc_GroupsOfTwoAndFour
  | _ => Gc_Unknown n
  end.
(** /repo/src/elements/ht/capabilities.rs:162-165 [into_bits] *)
Definition grouping_into_bits (v : GroupingCapability) : N :=
  match v with
  | Gc_NoGrouping => 0
  | Gc_GroupsOfTwo => 1
  | Gc_GroupsOfFour => 2
  | Gc_GroupsOfTwoAndFour => 3
  | Gc_Unknown n => n
  end.

(** /repo/src/elements/vht.rs:74-80 [VHTMCSSupport: u8] *)
Inductive VHTMCSSupport :=
| Vm_ZeroToSeven
| Vm_ZeroToEight
| Vm_ZeroToNine
| Vm_NotSupported
| Vm_Unknown (n : N).
(** /repo/src/elements/vht.rs:75-79 [from_bits] *)
Definition vht_mcs_from_bits (n : N) : VHTMCSSupport :=
  match n with
  | 0 => Vm_ZeroToSeven
  | 1 => Vm_ZeroToEight
  | 2 => Vm_ZeroToNine
  | 3 => Vm_NotSupported
  | _ => Vm_Unknown n
  end.
(** /repo/src/elements/vht.rs:75-79 [into_bits] *)
Definition vht_mcs_into_bits (v : VHTMCSSupport) : N :=
  match v with
  | Vm_ZeroToSeven => 0
  | Vm_ZeroToEight => 1
  | Vm_ZeroToNine => 2
  | Vm_NotSupported => 3
  | Vm_Unknown n => n
  end.

(** /repo/src/elements/vht.rs:192-197 [ChannelWidth: u8] *)
Inductive ChannelWidth :=
| Cw_TwentyOrFourtyMHz
| Cw_EightyOneSixtyOrEightyPlusEightyMhz
| Cw_OneSixtyMHz
| Cw_NonContiguousEightyPlusEightyMHz
| Cw_Unknown (n : N).
(** /repo/src/elements/vht.rs:193-196 [from_bits] *)
Definition channel_width_from_bits (n : N) : ChannelWidth :=
  match n with
  | 0 => Cw_TwentyOrFourtyMHz
  | 1 => Cw_EightyOneSixtyOrEightyPlusEightyMhz
  | 2 => Cw_OneSixtyMHz
  | 3 => Cw_NonContiguousEightyPlusEightyMHz
  | _ => Cw_Unknown n
  end.
(** /repo/src/elements/vht.rs:193-196 [into_bits] *)
Definition channel_width_into_bits (v : ChannelWidth) : N :=
  match v with
  | Cw_TwentyOrFourtyMHz => 0
  | Cw_EightyOneSixtyOrEightyPlusEightyMhz => 1
  | Cw_OneSixtyMHz => 2
  | Cw_NonContiguousEightyPlusEightyMHz => 3
  | Cw_Unknown n => n
  end.

(** /repo/src/crypto/eapol.rs:22-29 [KeyDescriptorVersion: u8] *)
Inductive KeyDescriptorVersion :=
| Kdv_Rc4HmacMd5
| Kdv_AesHmacSha1
| Kdv_AesCmac
| Kdv_Unknown (n : N).
(** /repo/src/crypto/eapol.rs:24-28 [from_bits] *)
Definition key_desc_version_from_bits (n : N) : KeyDescriptorVersion :=
  match n with
  | 1 => Kdv_Rc4HmacMd5
  | 2 => Kdv_AesHmacSha1
  | 3 => Kdv_AesCmac
  | _ => Kdv_Unknown n
  end.
(** /repo/src/crypto/eapol.rs:24-28 [into_bits] *)
Definition key_desc_version_into_bits (v : KeyDescriptorVersion) : N :=
  match v with
  | Kdv_Rc4HmacMd5 => 1
  | Kdv_AesHmacSha1 => 2
  | Kdv_AesCmac => 3
  | Kdv_Unknown n => n
  end.
