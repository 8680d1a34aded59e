(** The CSN.1 tables of the RLC/MAC control messages the PCU decodes, of the MS radio access
    capability, and of the four downlink messages the PCU encodes with csnStreamEncoder.

    src/gsm_rlcmac.c (the tables), src/gsm_rlcmac.h (the structures).  One definition per table and one
    entry per macro, in the order of the source.  Offsets and sizes are those of the structures of
    gsm_rlcmac.h laid out naturally on x86-64 (gboolean is a 4-byte int, no packing).  The last number of an entry is
    the size of the member it fills.  The skip count of NextExist counts entries of this file: a union
    and its alternatives are one. *)
From Coq Require Import ZArith List Bool.
Import ListNotations.
From Verif Require Import Model.Csn1.
Open Scope Z_scope.

(** CSNDESCR(FDD_Target_Cell_t), gsm_rlcmac.c:1570-1576 *)
Definition T_FDD_Target_Cell_t : list entry :=
  [ Uint false 14 0 2;
    Uint false 1 2 1;
    NextExist false 1 3 1;
    Uint false 3 4 1;
    Uint false 9 6 2 ].

(** CSNDESCR(TDD_Target_Cell_t), gsm_rlcmac.c:1579-1586 *)
Definition T_TDD_Target_Cell_t : list entry :=
  [ Uint false 14 0 2;
    Uint false 1 2 1;
    NextExist false 1 3 1;
    Uint false 3 4 1;
    Uint false 7 6 2;
    Uint false 1 8 1 ].

(** CSNDESCR(EUTRAN_Target_Cell_t), gsm_rlcmac.c:1589-1594 *)
Definition T_EUTRAN_Target_Cell_t : list entry :=
  [ Uint false 16 0 2;
    NextExist false 1 2 1;
    Uint false 3 3 1;
    Uint false 9 4 2 ].

(** CSNDESCR(PLMN_t), gsm_rlcmac.c:48-55 *)
Definition T_PLMN_t : list entry :=
  [ Uint false 4 1 1;
    Uint false 4 0 1;
    Uint false 4 3 1;
    Uint false 4 2 1;
    Uint false 4 5 1;
    Uint false 4 4 1 ].

(** CSNDESCR(UTRAN_CSG_Target_Cell_t), gsm_rlcmac.c:1597-1601 *)
Definition T_UTRAN_CSG_Target_Cell_t : list entry :=
  [ Uint false 28 0 4;
    NextExist false 1 4 1;
    Typ false 5 6 T_PLMN_t ].

(** CSNDESCR(EUTRAN_CSG_Target_Cell_t), gsm_rlcmac.c:1604-1609 *)
Definition T_EUTRAN_CSG_Target_Cell_t : list entry :=
  [ Uint false 28 0 4;
    Uint false 16 4 2;
    NextExist false 1 6 1;
    Typ false 7 6 T_PLMN_t ].

(** CSNDESCR(PCCF_AdditionsR9_t), gsm_rlcmac.c:1612-1617 *)
Definition T_PCCF_AdditionsR9_t : list entry :=
  [ NextExist false 1 0 1;
    Typ false 4 12 T_UTRAN_CSG_Target_Cell_t;
    NextExist false 1 16 1;
    Typ false 20 16 T_EUTRAN_CSG_Target_Cell_t ].

(** CSNDESCR(PCCF_AdditionsR8_t), gsm_rlcmac.c:1620-1625 *)
Definition T_PCCF_AdditionsR8_t : list entry :=
  [ NextExist false 1 0 1;
    Typ false 2 6 T_EUTRAN_Target_Cell_t;
    NextExist true 1 8 1;
    Typ false 12 36 T_PCCF_AdditionsR9_t ].

(** CSNDESCR(PCCF_AdditionsR5_t), gsm_rlcmac.c:1628-1633 *)
Definition T_PCCF_AdditionsR5_t : list entry :=
  [ NextExist false 1 0 1;
    Uint false 4 1 1;
    NextExist true 1 2 1;
    Typ false 4 48 T_PCCF_AdditionsR8_t ].

(** CSNDESCR(PCCF_AdditionsR99_t), gsm_rlcmac.c:1636-1643 *)
Definition T_PCCF_AdditionsR99_t : list entry :=
  [ NextExist false 1 0 1;
    Typ false 2 8 T_FDD_Target_Cell_t;
    NextExist false 1 10 1;
    Typ false 12 10 T_TDD_Target_Cell_t;
    NextExist true 1 22 1;
    Typ false 24 52 T_PCCF_AdditionsR5_t ].

(** CSNDESCR(Packet_Cell_Change_Failure_t), gsm_rlcmac.c:1647-1664 *)
Definition T_Packet_Cell_Change_Failure_t : list entry :=
  [ Uint false 2 1 1;
    Uint false 5 2 1;
    Uint false 1 3 1;
    Uint false 6 0 1;
    Uint false 32 4 4;
    Uint false 10 8 2;
    Uint false 6 10 1;
    Uint false 4 11 1;
    NextExist true 1 12 4;
    Typ false 16 76 T_PCCF_AdditionsR99_t;
    Padding ].

(** CSNDESCR(Packet_Control_Acknowledgement_AdditionsR6_t), gsm_rlcmac.c:742-745 *)
Definition T_Packet_Control_Acknowledgement_AdditionsR6_t : list entry :=
  [ NextExist false 1 0 1;
    Uint false 9 2 2 ].

(** CSNDESCR(Packet_Control_Acknowledgement_AdditionsR5_t), gsm_rlcmac.c:748-756 *)
Definition T_Packet_Control_Acknowledgement_AdditionsR5_t : list entry :=
  [ NextExist false 1 0 1;
    Uint false 3 1 1;
    NextExist false 1 2 1;
    Uint false 4 3 1;
    NextExist true 1 4 4;
    Typ false 8 4 T_Packet_Control_Acknowledgement_AdditionsR6_t ].

(** CSNDESCR(Packet_Control_Acknowledgement_t), gsm_rlcmac.c:759-770 *)
Definition T_Packet_Control_Acknowledgement_t : list entry :=
  [ Uint false 2 1 1;
    Uint false 5 2 1;
    Bit false 3 1;
    Uint false 6 0 1;
    Uint false 32 4 4;
    Uint false 2 8 1;
    NextExist true 1 12 4;
    Typ false 16 12 T_Packet_Control_Acknowledgement_AdditionsR5_t;
    Padding ].

(** CSNDESCR(Ack_Nack_Description_t), gsm_rlcmac.c:82-86 *)
Definition T_Ack_Nack_Description_t : list entry :=
  [ Uint false 1 0 1;
    Uint false 7 1 1;
    Bitmap 64 2 8 ].

(** CSNDESCR(Channel_Request_Description_t), gsm_rlcmac.c:1151-1157 *)
Definition T_Channel_Request_Description_t : list entry :=
  [ Uint false 4 0 1;
    Uint false 2 1 1;
    Uint false 1 2 1;
    Uint false 1 3 1;
    Uint false 16 4 2 ].

(** CSNDESCR(Channel_Quality_Report_t), gsm_rlcmac.c:138-166 *)
Definition T_Channel_Quality_Report_t : list entry :=
  [ Uint false 6 0 1;
    Uint false 3 1 1;
    Uint false 6 2 1;
    NextExist false 1 3 1;
    Uint false 4 4 1;
    NextExist false 1 5 1;
    Uint false 4 6 1;
    NextExist false 1 7 1;
    Uint false 4 8 1;
    NextExist false 1 9 1;
    Uint false 4 10 1;
    NextExist false 1 11 1;
    Uint false 4 12 1;
    NextExist false 1 13 1;
    Uint false 4 14 1;
    NextExist false 1 15 1;
    Uint false 4 16 1;
    NextExist false 1 17 1;
    Uint false 4 18 1 ].

(** CSNDESCR(PD_AckNack_AdditionsR99_t), gsm_rlcmac.c:1507-1510 *)
Definition T_PD_AckNack_AdditionsR99_t : list entry :=
  [ NextExist false 1 0 4;
    Uint false 7 4 1 ].

(** CSNDESCR(Packet_Downlink_Ack_Nack_t), gsm_rlcmac.c:1513-1529 *)
Definition T_Packet_Downlink_Ack_Nack_t : list entry :=
  [ Uint false 2 1 1;
    Uint false 5 2 1;
    Bit false 3 1;
    Uint false 6 0 1;
    Uint false 5 4 1;
    Typ false 5 10 T_Ack_Nack_Description_t;
    NextExist false 1 15 1;
    Typ false 16 6 T_Channel_Request_Description_t;
    Typ false 22 19 T_Channel_Quality_Report_t;
    NextExist true 1 44 4;
    Typ false 48 8 T_PD_AckNack_AdditionsR99_t;
    Padding ].

(** CSNDESCR(Packet_Uplink_Dummy_Control_Block_t), gsm_rlcmac.c:785-794 *)
Definition T_Packet_Uplink_Dummy_Control_Block_t : list entry :=
  [ Uint false 2 1 1;
    Uint false 5 2 1;
    Bit false 3 1;
    Uint false 6 0 1;
    Uint false 32 4 4;
    Padding ].

(** CSNDESCR(Serving_Cell_Data_t), gsm_rlcmac.c:3854-3857 *)
Definition T_Serving_Cell_Data_t : list entry :=
  [ Uint false 6 0 1;
    Fixed 1 0 ].

(** CSNDESCR(NC_Measurements_t), gsm_rlcmac.c:3860-3866 *)
Definition T_NC_Measurements_t : list entry :=
  [ Uint false 6 0 1;
    NextExist false 1 1 1;
    Uint false 6 2 1;
    Uint false 6 3 1 ].

(** CSNDESCR(NC_Measurement_Report_t), gsm_rlcmac.c:3882-3887 *)
Definition T_NC_Measurement_Report_t : list entry :=
  [ Uint false 1 0 1;
    Typ false 1 1 T_Serving_Cell_Data_t;
    Uint false 3 2 1;
    VarTArr 2 3 4 24 T_NC_Measurements_t ].

(** CSNDESCR(EXT_Measurement_Report_t), gsm_rlcmac.c:3907-3938 *)
Definition T_EXT_Measurement_Report_t : list entry :=
  [ Uint false 2 0 1;
    NextExist false 1 1 1;
    NextExist false 1 2 1;
    Uint false 6 3 1;
    NextExist false 1 4 1;
    Uint false 6 5 1;
    NextExist false 1 6 1;
    Uint false 6 7 1;
    NextExist false 1 8 1;
    Uint false 6 9 1;
    NextExist false 1 10 1;
    Uint false 6 11 1;
    NextExist false 1 12 1;
    Uint false 6 13 1;
    NextExist false 1 14 1;
    Uint false 6 15 1;
    NextExist false 1 16 1;
    Uint false 6 17 1;
    Uint false 5 18 1;
    VarTArr 18 19 4 36 T_NC_Measurements_t ].

(** CSNDESCR(BA_USED_t), gsm_rlcmac.c:3848-3851 *)
Definition T_BA_USED_t : list entry :=
  [ Uint false 1 0 1;
    Uint false 1 1 1 ].

(** CSNDESCR(Measurements_3G_t), gsm_rlcmac.c:3941-3944 *)
Definition T_Measurements_3G_t : list entry :=
  [ Uint false 7 0 1;
    Uint false 6 1 1 ].

(** CSNDESCR(EUTRAN_Measurement_Report_Body_t), gsm_rlcmac.c:3947-3951 *)
Definition T_EUTRAN_Measurement_Report_Body_t : list entry :=
  [ Uint false 3 0 1;
    Uint false 9 2 2;
    Uint false 6 4 1 ].

(** CSNDESCR(EUTRAN_Measurement_Report_t), gsm_rlcmac.c:3954-3957 *)
Definition T_EUTRAN_Measurement_Report_t : list entry :=
  [ UintOff 2 1 0 1;
    VarTArr 0 2 6 24 T_EUTRAN_Measurement_Report_Body_t ].

(** CSNDESCR(UTRAN_CSG_Measurement_Report_t), gsm_rlcmac.c:3960-3967 *)
Definition T_UTRAN_CSG_Measurement_Report_t : list entry :=
  [ Uint false 28 0 4;
    NextExist false 1 4 1;
    Typ false 5 6 T_PLMN_t;
    Uint false 27 12 4;
    Uint false 1 16 4;
    Uint false 6 20 1 ].

(** CSNDESCR(EUTRAN_CSG_Measurement_Report_t), gsm_rlcmac.c:3970-3978 *)
Definition T_EUTRAN_CSG_Measurement_Report_t : list entry :=
  [ Uint false 28 0 4;
    Uint false 16 4 2;
    NextExist false 1 6 1;
    Typ false 7 6 T_PLMN_t;
    Uint false 27 16 4;
    Uint false 1 20 4;
    Uint false 6 24 1 ].

(** CSNDESCR(PMR_AdditionsR9_t), gsm_rlcmac.c:3981-3986 *)
Definition T_PMR_AdditionsR9_t : list entry :=
  [ NextExist false 1 0 4;
    Typ false 4 24 T_UTRAN_CSG_Measurement_Report_t;
    NextExist false 1 28 4;
    Typ false 32 28 T_EUTRAN_CSG_Measurement_Report_t ].

(** CSNDESCR(PMR_AdditionsR8_t), gsm_rlcmac.c:3989-3994 *)
Definition T_PMR_AdditionsR8_t : list entry :=
  [ NextExist false 1 0 4;
    Typ false 4 26 T_EUTRAN_Measurement_Report_t;
    NextExist true 1 32 4;
    Typ false 36 60 T_PMR_AdditionsR9_t ].

(** CSNDESCR(PMR_AdditionsR5_t), gsm_rlcmac.c:3997-4002 *)
Definition T_PMR_AdditionsR5_t : list entry :=
  [ NextExist false 3 0 4;
    Uint false 4 4 1;
    NextExist true 1 8 4;
    Typ false 12 96 T_PMR_AdditionsR8_t ].

(** CSNDESCR(PMR_AdditionsR99_t), gsm_rlcmac.c:4005-4018 *)
Definition T_PMR_AdditionsR99_t : list entry :=
  [ NextExist false 2 0 4;
    Union 4 1 [Typ false 5 2 T_BA_USED_t; Uint false 2 5 1];
    Uint false 1 7 1;
    NextExist false 2 8 4;
    UintOff 3 1 12 1;
    VarTArr 12 13 2 12 T_Measurements_3G_t;
    NextExist true 1 28 4;
    Typ false 32 108 T_PMR_AdditionsR5_t ].

(** CSNDESCR(Packet_Measurement_Report_t), gsm_rlcmac.c:4052-4073 *)
Definition T_Packet_Measurement_Report_t : list entry :=
  [ Uint false 2 1 1;
    Uint false 5 2 1;
    Uint false 1 3 1;
    Uint false 6 0 1;
    Uint false 32 4 4;
    NextExist false 1 8 1;
    Uint false 2 9 1;
    Union 10 1 [Typ false 11 27 T_NC_Measurement_Report_t; Typ false 11 55 T_EXT_Measurement_Report_t];
    NextExist true 1 68 4;
    Typ false 72 140 T_PMR_AdditionsR99_t;
    Padding ].

(** CSNDESCR(Global_TFI_t), gsm_rlcmac.c:66-70 *)
Definition T_Global_TFI_t : list entry :=
  [ Union 0 1 [Uint false 5 1 1; Uint false 5 1 1] ].

(** CSNDESCR(PacketResourceRequestID_t), gsm_rlcmac.c:1168-1170, 1161-1165 *)
Definition T_PacketResourceRequestID_t : list entry :=
  [ Choice 0 1 [(1, 0, Typ false 4 2 T_Global_TFI_t);
      (1, 1, Uint false 32 4 4)] ].

(** CSNDESCR(DTM_EGPRS_t), gsm_rlcmac.c:828-831 *)
Definition T_DTM_EGPRS_t : list entry :=
  [ NextExist false 1 0 1;
    Uint false 2 1 1 ].

(** CSNDESCR(Multislot_capability_t), gsm_rlcmac.c:846-869 *)
Definition T_Multislot_capability_t : list entry :=
  [ NextExist true 1 0 1;
    Uint false 5 1 1;
    NextExist true 2 2 1;
    Uint false 5 3 1;
    Uint false 1 4 1;
    NextExist true 2 5 1;
    Uint false 4 6 1;
    Uint false 4 7 1;
    NextExist true 1 8 1;
    Uint false 5 9 1;
    NextExist true 2 10 1;
    Uint false 5 11 1;
    Uint false 1 12 1;
    NextExist true 3 13 1;
    Uint false 2 14 1;
    Uint false 1 15 1;
    Typ false 16 2 T_DTM_EGPRS_t ].

(** CSNDESCR(DTM_EGPRS_HighMultislotClass_t), gsm_rlcmac.c:834-837 *)
Definition T_DTM_EGPRS_HighMultislotClass_t : list entry :=
  [ NextExist false 1 0 1;
    Uint false 3 1 1 ].

(** CSNDESCR(DownlinkDualCarrierCapability_r7_t), gsm_rlcmac.c:840-843 *)
Definition T_DownlinkDualCarrierCapability_r7_t : list entry :=
  [ Uint false 3 0 1;
    Uint false 1 1 1 ].

(** CSNDESCR(Content_t), gsm_rlcmac.c:872-942 *)
Definition T_Content_t : list entry :=
  [ Uint false 3 0 1;
    NextExist true 1 1 1;
    Uint true 7 2 1;
    Uint true 1 3 1;
    Uint true 1 4 1;
    Uint true 1 5 1;
    Uint true 1 6 1;
    NextExist true 1 7 1;
    Typ false 8 18 T_Multislot_capability_t;
    NextExist true 1 26 1;
    Uint false 2 27 1;
    Uint true 1 28 1;
    Uint true 1 29 1;
    Uint true 1 30 1;
    Uint true 1 31 1;
    Uint true 1 32 1;
    Uint true 1 33 1;
    Uint true 1 34 1;
    NextExist true 2 35 1;
    Uint false 2 36 1;
    Uint false 2 37 1;
    Uint true 1 38 1;
    NextExist true 1 39 1;
    Uint false 2 40 1;
    NextExist true 1 41 1;
    Uint false 4 42 1;
    Uint true 2 43 1;
    Uint true 2 44 1;
    Uint true 1 45 1;
    Uint true 2 46 1;
    Uint true 1 47 1;
    Uint true 1 48 1;
    NextExist true 2 49 1;
    Uint false 3 50 1;
    Typ false 51 2 T_DTM_EGPRS_HighMultislotClass_t;
    Uint true 1 53 1;
    Uint true 1 54 1;
    NextExist true 1 55 1;
    Typ true 56 2 T_DownlinkDualCarrierCapability_r7_t;
    Uint true 1 58 1;
    Uint true 1 59 1;
    Uint true 1 60 1;
    Uint true 1 61 1;
    Uint true 2 62 1;
    Uint true 2 63 1;
    Uint true 1 64 1;
    Uint true 1 65 1;
    Uint true 2 66 1;
    Uint true 1 67 1 ].

(** CSNDESCR(Additional_access_technologies_struct_t), gsm_rlcmac.c:957-961 *)
Definition T_Additional_access_technologies_struct_t : list entry :=
  [ Uint false 4 0 1;
    Uint false 3 1 1;
    Uint false 2 2 1 ].

(** CSNDESCR(Additional_access_technologies_t), gsm_rlcmac.c:964-966 *)
Definition T_Additional_access_technologies_t : list entry :=
  [ RecTArr 0 1 3 10 30 T_Additional_access_technologies_struct_t ].

(** CSNDESCR(MS_RA_capability_value_t), gsm_rlcmac.c:1001-1003, 981-998 *)
Definition T_MS_RA_capability_value_t : list entry :=
  [ Choice 0 1 [(4, 0, Serialize 7 1 68 T_Content_t);
      (4, 1, Serialize 7 1 68 T_Content_t);
      (4, 2, Serialize 7 1 68 T_Content_t);
      (4, 3, Serialize 7 1 68 T_Content_t);
      (4, 4, Serialize 7 1 68 T_Content_t);
      (4, 5, Serialize 7 1 68 T_Content_t);
      (4, 6, Serialize 7 1 68 T_Content_t);
      (4, 7, Serialize 7 1 68 T_Content_t);
      (4, 8, Serialize 7 1 68 T_Content_t);
      (4, 9, Serialize 7 1 68 T_Content_t);
      (4, 10, Serialize 7 1 68 T_Content_t);
      (4, 11, Serialize 7 1 68 T_Content_t);
      (4, 12, Serialize 7 1 68 T_Content_t);
      (4, 13, Serialize 7 1 68 T_Content_t);
      (4, 15, Serialize 7 1 31 T_Additional_access_technologies_t)] ].

(** CSNDESCR(MS_Radio_Access_capability2_t), gsm_rlcmac.c:1013-1015 *)
Definition T_MS_Radio_Access_capability2_t : list entry :=
  [ RecTArr1 0 1 69 11 759 T_MS_RA_capability_value_t ].

(** CSNDESCR(InterferenceMeasurementReport_t), gsm_rlcmac.c:1181-1184 *)
Definition T_InterferenceMeasurementReport_t : list entry :=
  [ NextExist false 1 0 4;
    Uint false 4 4 1 ].

(** CSNDESCR(EGPRS_BEP_LinkQualityMeasurements_t), gsm_rlcmac.c:1196-1204 *)
Definition T_EGPRS_BEP_LinkQualityMeasurements_t : list entry :=
  [ NextExist false 2 0 4;
    Uint false 5 4 1;
    Uint false 3 5 1;
    NextExist false 2 8 4;
    Uint false 5 12 1;
    Uint false 3 13 1 ].

(** CSNDESCR(BEP_MeasurementReport_t), gsm_rlcmac.c:1173-1178 *)
Definition T_BEP_MeasurementReport_t : list entry :=
  [ NextExist false 1 0 4;
    Union 4 1 [Uint false 4 5 1; Uint false 4 5 1] ].

(** CSNDESCR(EGPRS_TimeslotLinkQualityMeasurements_t), gsm_rlcmac.c:1187-1193 *)
Definition T_EGPRS_TimeslotLinkQualityMeasurements_t : list entry :=
  [ NextExist false 1 0 4;
    TArr 8 4 8 64 T_BEP_MeasurementReport_t;
    NextExist false 1 68 4;
    TArr 8 72 8 64 T_InterferenceMeasurementReport_t ].

(** CSNDESCR(IU_Mode_Channel_Request_Desk_t), gsm_rlcmac.c:1207-1220 *)
Definition T_IU_Mode_Channel_Request_Desk_t : list entry :=
  [ Uint false 5 0 1;
    Uint false 2 1 1;
    NextExist false 1 4 4;
    Uint false 8 8 1;
    Uint false 1 12 4 ].

(** CSNDESCR(IU_Mode_Channel_Request_Desk_RNTI_t), gsm_rlcmac.c:1223-1230 *)
Definition T_IU_Mode_Channel_Request_Desk_RNTI_t : list entry :=
  [ NextExist false 1 0 4;
    Uint false 4 4 1;
    Typ false 8 16 T_IU_Mode_Channel_Request_Desk_t ].

(** CSNDESCR(Ext_Channel_Request_desc_t), gsm_rlcmac.c:1234-1248 *)
Definition T_Ext_Channel_Request_desc_t : list entry :=
  [ Uint false 7 0 1;
    Uint false 2 1 1;
    Uint false 1 2 1;
    NextExist false 1 4 4;
    Uint false 1 8 1;
    Uint false 1 12 4 ].

(** CSNDESCR(EGPRS_BEP_LinkQualityMeasurements_type2_t), gsm_rlcmac.c:1251-1281 *)
Definition T_EGPRS_BEP_LinkQualityMeasurements_type2_t : list entry :=
  [ NextExist false 1 0 4;
    Uint false 5 4 1;
    Uint false 3 5 1;
    NextExist false 1 8 4;
    Uint false 5 12 1;
    Uint false 3 13 1;
    NextExist false 1 16 4;
    Uint false 5 20 1;
    Uint false 3 21 1;
    NextExist false 1 24 4;
    Uint false 5 28 1;
    Uint false 3 29 1;
    NextExist false 1 32 4;
    Uint false 5 36 1;
    Uint false 3 37 1;
    NextExist false 1 40 4;
    Uint false 5 44 1;
    Uint false 3 45 1;
    NextExist false 1 48 4;
    Uint false 5 52 1;
    Uint false 3 53 1 ].

(** CSNDESCR(BEP_MeasurementReport_type2_t), gsm_rlcmac.c:1284-1288 *)
Definition T_BEP_MeasurementReport_type2_t : list entry :=
  [ NextExist false 1 0 4;
    Uint false 2 4 1;
    Uint false 4 5 1 ].

(** CSNDESCR(InterferenceMeasurementReport_type2_t), gsm_rlcmac.c:1291-1294 *)
Definition T_InterferenceMeasurementReport_type2_t : list entry :=
  [ NextExist false 1 0 4;
    Uint false 4 4 1 ].

(** CSNDESCR(EGPRS_TimeslotLinkQualityMeasurements_type2_t), gsm_rlcmac.c:1296-1302 *)
Definition T_EGPRS_TimeslotLinkQualityMeasurements_type2_t : list entry :=
  [ NextExist false 1 0 4;
    TArr 8 4 8 64 T_BEP_MeasurementReport_type2_t;
    NextExist false 1 68 4;
    TArr 8 72 8 64 T_InterferenceMeasurementReport_type2_t ].

(** CSNDESCR(PRR_AdditionsR12_t), gsm_rlcmac.c:1305-1310 *)
Definition T_PRR_AdditionsR12_t : list entry :=
  [ NextExist false 1 0 4;
    Uint false 3 4 1 ].

(** CSNDESCR(PRR_AdditionsR10_t), gsm_rlcmac.c:1313-1319 *)
Definition T_PRR_AdditionsR10_t : list entry :=
  [ Uint false 1 0 1;
    NextExist true 1 4 4;
    Typ false 8 8 T_PRR_AdditionsR12_t ].

(** CSNDESCR(PRR_AdditionsR7_t), gsm_rlcmac.c:1322-1334 *)
Definition T_PRR_AdditionsR7_t : list entry :=
  [ Uint false 1 0 1;
    NextExist false 1 4 4;
    Typ false 8 56 T_EGPRS_BEP_LinkQualityMeasurements_type2_t;
    NextExist false 1 64 4;
    Typ false 68 136 T_EGPRS_TimeslotLinkQualityMeasurements_type2_t;
    NextExist true 1 204 4;
    Typ false 208 16 T_PRR_AdditionsR10_t ].

(** CSNDESCR(PRR_AdditionsR6_t), gsm_rlcmac.c:1337-1344 *)
Definition T_PRR_AdditionsR6_t : list entry :=
  [ NextExist false 1 0 4;
    Typ false 4 16 T_Ext_Channel_Request_desc_t;
    NextExist true 1 20 1;
    Typ false 24 224 T_PRR_AdditionsR7_t ].

(** CSNDESCR(PRR_AdditionsR5_t), gsm_rlcmac.c:1347-1356 *)
Definition T_PRR_AdditionsR5_t : list entry :=
  [ NextExist false 1 0 1;
    Typ false 4 24 T_IU_Mode_Channel_Request_Desk_RNTI_t;
    NextExist false 1 28 1;
    Uint false 7 29 1;
    NextExist true 1 30 1;
    Typ false 32 248 T_PRR_AdditionsR6_t ].

(** CSNDESCR(PRR_AdditionsR99_t), gsm_rlcmac.c:1359-1375 *)
Definition T_PRR_AdditionsR99_t : list entry :=
  [ NextExist false 1 0 4;
    Typ false 4 16 T_EGPRS_BEP_LinkQualityMeasurements_t;
    NextExist false 1 20 4;
    Typ false 24 136 T_EGPRS_TimeslotLinkQualityMeasurements_t;
    NextExist false 1 160 4;
    Uint false 7 164 1;
    Uint false 1 165 1;
    Uint false 1 166 1;
    NextExist true 1 167 1;
    Typ false 168 280 T_PRR_AdditionsR5_t ].

(** CSNDESCR(Packet_Resource_Request_t), gsm_rlcmac.c:1378-1409 *)
Definition T_Packet_Resource_Request_t : list entry :=
  [ Uint false 2 1 1;
    Uint false 5 2 1;
    Uint false 1 3 1;
    Uint false 6 0 1;
    NextExist false 1 4 1;
    Uint false 2 5 1;
    Typ false 8 8 T_PacketResourceRequestID_t;
    NextExist false 1 16 1;
    Typ false 17 760 T_MS_Radio_Access_capability2_t;
    Typ false 778 6 T_Channel_Request_Description_t;
    NextExist false 1 784 1;
    Uint false 2 785 1;
    Uint false 6 786 1;
    NextExist false 1 787 1;
    Uint false 6 788 1;
    TArr 8 792 8 64 T_InterferenceMeasurementReport_t;
    NextExist true 1 856 1;
    Typ false 860 448 T_PRR_AdditionsR99_t;
    Padding ].

(** CSNDESCR(Packet_Mobile_TBF_Status_t), gsm_rlcmac.c:1413-1427 *)
Definition T_Packet_Mobile_TBF_Status_t : list entry :=
  [ Uint false 2 1 1;
    Uint false 5 2 1;
    Uint false 1 3 1;
    Uint false 6 0 1;
    Typ false 4 2 T_Global_TFI_t;
    Uint false 3 6 1;
    NextExist false 1 7 1;
    Uint false 6 8 1;
    Padding ].

(** CSNDESCR(PSI_Message_t), gsm_rlcmac.c:1431-1437 *)
Definition T_PSI_Message_t : list entry :=
  [ Uint false 6 0 1;
    Uint false 2 1 1;
    NextExist false 2 2 1;
    Fixed 4 0;
    Fixed 1 0 ].

(** CSNDESCR(PSI_Message_List_t), gsm_rlcmac.c:1440-1444 *)
Definition T_PSI_Message_List_t : list entry :=
  [ RecTArr 0 1 3 10 30 T_PSI_Message_t;
    Fixed 1 0;
    Uint false 1 31 1 ].

(** CSNDESCR(Unknown_PSI_Message_List_t), gsm_rlcmac.c:1447-1450 *)
Definition T_Unknown_PSI_Message_List_t : list entry :=
  [ Fixed 1 0;
    Uint false 1 0 1 ].

(** CSNDESCR(Packet_PSI_Status_t), gsm_rlcmac.c:1453-1466 *)
Definition T_Packet_PSI_Status_t : list entry :=
  [ Uint false 2 1 1;
    Uint false 5 2 1;
    Uint false 1 3 1;
    Uint false 6 0 1;
    Typ false 4 2 T_Global_TFI_t;
    Uint false 3 6 1;
    Typ false 7 32 T_PSI_Message_List_t;
    Typ false 39 1 T_Unknown_PSI_Message_List_t;
    Padding ].

(** CSNDESCR(EGPRS_ChannelQualityReport_t), gsm_rlcmac.c:1534-1538 *)
Definition T_EGPRS_ChannelQualityReport_t : list entry :=
  [ Typ false 0 16 T_EGPRS_BEP_LinkQualityMeasurements_t;
    Uint false 6 16 1;
    Typ false 20 136 T_EGPRS_TimeslotLinkQualityMeasurements_t ].

(** CSNDESCR(Extension_Bits_t), gsm_rlcmac.c:618-621 *)
Definition T_Extension_Bits_t : list entry :=
  [ UintOff 6 1 0 1;
    LeftBmp false 0 0 1 8 ].

(** CSNDESCR(EGPRS_AckNack_Desc_t), gsm_rlcmac.c:170-182 *)
Definition T_EGPRS_AckNack_Desc_t : list entry :=
  [ Uint false 1 0 1;
    Uint false 1 1 1;
    Uint false 1 2 1;
    Uint false 11 4 2;
    NextExist false 3 8 4;
    Uint false 7 12 1;
    Uint false 1 13 1;
    LeftBmp false 12 0 14 16;
    LeftBmp true 30 0 32 42 ].

(** CSNDESCR(EGPRS_AckNack_w_len_t), gsm_rlcmac.c:199-201 *)
Definition T_EGPRS_AckNack_w_len_t : list entry :=
  [ Serialize 8 0 76 T_EGPRS_AckNack_Desc_t ].

(** CSNDESCR(EGPRS_AckNack_t), gsm_rlcmac.c:204-208 *)
Definition T_EGPRS_AckNack_t : list entry :=
  [ Union 0 1 [Typ false 4 76 T_EGPRS_AckNack_Desc_t; Typ false 4 76 T_EGPRS_AckNack_w_len_t] ].

(** CSNDESCR(EGPRS_PD_AckNack_t), gsm_rlcmac.c:1541-1567 *)
Definition T_EGPRS_PD_AckNack_t : list entry :=
  [ Uint false 2 1 1;
    Uint false 5 2 1;
    Bit false 3 1;
    Uint false 6 0 1;
    Uint false 5 4 1;
    Uint false 1 5 1;
    NextExist false 1 8 4;
    Typ false 12 156 T_EGPRS_ChannelQualityReport_t;
    NextExist false 1 168 4;
    Typ false 172 6 T_Channel_Request_Description_t;
    NextExist false 1 180 4;
    Uint false 7 184 1;
    NextExist false 1 188 4;
    Typ false 192 9 T_Extension_Bits_t;
    Typ false 204 80 T_EGPRS_AckNack_t;
    Padding ].

(** CSNDESCR(Packet_Pause_t), gsm_rlcmac.c:4697-4702 *)
Definition T_Packet_Pause_t : list entry :=
  [ Uint false 2 0 1;
    Uint false 32 4 4;
    Bitmap 48 8 6;
    Padding ].

(** CSNDESCR(RepeatedInvalid_BSIC_Info_t), gsm_rlcmac.c:3869-3873 *)
Definition T_RepeatedInvalid_BSIC_Info_t : list entry :=
  [ Uint false 5 0 1;
    Uint false 6 1 1;
    Uint false 6 2 1 ].

(** CSNDESCR(REPORTING_QUANTITY_Instance_t), gsm_rlcmac.c:3876-3879 *)
Definition T_REPORTING_QUANTITY_Instance_t : list entry :=
  [ NextExist false 1 0 1;
    Uint false 6 1 1 ].

(** CSNDESCR(ENH_NC_Measurement_Report_t), gsm_rlcmac.c:3890-3903 *)
Definition T_ENH_NC_Measurement_Report_t : list entry :=
  [ Uint false 1 0 1;
    Union 1 1 [Typ false 2 2 T_BA_USED_t; Uint false 2 2 1];
    Uint false 1 4 1;
    Uint false 1 5 1;
    Uint false 1 6 1;
    NextExist false 1 7 1;
    Typ false 8 1 T_Serving_Cell_Data_t;
    RecTArr 9 10 3 16 48 T_RepeatedInvalid_BSIC_Info_t;
    NextExist false 1 58 1;
    VarTArr 59 60 2 192 T_REPORTING_QUANTITY_Instance_t ].

(** CSNDESCR(Bitmap_Report_Quantity_t), gsm_rlcmac.c:4084-4087 *)
Definition T_Bitmap_Report_Quantity_t : list entry :=
  [ NextExist false 1 0 4;
    Uint false 6 4 1 ].

(** CSNDESCR(PEMR_AdditionsR9_t), gsm_rlcmac.c:4076-4081 *)
Definition T_PEMR_AdditionsR9_t : list entry :=
  [ NextExist false 1 0 1;
    Typ false 4 12 T_UTRAN_CSG_Target_Cell_t;
    NextExist false 1 16 1;
    Typ false 20 16 T_EUTRAN_CSG_Target_Cell_t ].

(** CSNDESCR(PEMR_AdditionsR8_t), gsm_rlcmac.c:4090-4097 *)
Definition T_PEMR_AdditionsR8_t : list entry :=
  [ UintOff 7 1 0 1;
    VarTArr 0 4 8 1024 T_Bitmap_Report_Quantity_t;
    NextExist false 1 1028 4;
    Typ false 1032 26 T_EUTRAN_Measurement_Report_t;
    NextExist true 1 1060 4;
    Typ false 1064 36 T_PEMR_AdditionsR9_t ].

(** CSNDESCR(PEMR_AdditionsR5_t), gsm_rlcmac.c:4100-4105 *)
Definition T_PEMR_AdditionsR5_t : list entry :=
  [ NextExist false 1 0 4;
    Uint false 4 4 1;
    NextExist true 1 8 4;
    Typ false 12 1100 T_PEMR_AdditionsR8_t ].

(** CSNDESCR(Packet_Enh_Measurement_Report_t), gsm_rlcmac.c:4109-4125 *)
Definition T_Packet_Enh_Measurement_Report_t : list entry :=
  [ Uint false 2 1 1;
    Uint false 5 2 1;
    Uint false 1 3 1;
    Uint false 6 0 1;
    Uint false 32 4 4;
    Typ false 8 252 T_ENH_NC_Measurement_Report_t;
    NextExist true 1 260 4;
    Typ false 264 1112 T_PEMR_AdditionsR5_t;
    Padding ].

(** CSNDESCR(AdditionalMsRadAccessCapID_t), gsm_rlcmac.c:4671-4673, 4664-4668 *)
Definition T_AdditionalMsRadAccessCapID_t : list entry :=
  [ Choice 0 1 [(1, 0, Typ false 4 2 T_Global_TFI_t);
      (1, 1, Uint false 32 4 4)] ].

(** CSNDESCR(Additional_MS_Rad_Access_Cap_t), gsm_rlcmac.c:4677-4688 *)
Definition T_Additional_MS_Rad_Access_Cap_t : list entry :=
  [ Uint false 2 1 1;
    Uint false 5 2 1;
    Uint false 1 3 1;
    Uint false 6 0 1;
    Typ false 4 8 T_AdditionalMsRadAccessCapID_t;
    Typ false 12 760 T_MS_Radio_Access_capability2_t;
    Padding ].

(** CSNDESCR(Target_Cell_GSM_Notif_t), gsm_rlcmac.c:4173-4176 *)
Definition T_Target_Cell_GSM_Notif_t : list entry :=
  [ Uint false 10 0 2;
    Uint false 6 2 1 ].

(** CSNDESCR(FDD_Target_Cell_Notif_t), gsm_rlcmac.c:4179-4184 *)
Definition T_FDD_Target_Cell_Notif_t : list entry :=
  [ Uint false 14 0 2;
    NextExist false 1 2 1;
    Uint false 3 3 1;
    Uint false 9 4 2 ].

(** CSNDESCR(TDD_Target_Cell_Notif_t), gsm_rlcmac.c:4187-4193 *)
Definition T_TDD_Target_Cell_Notif_t : list entry :=
  [ Uint false 14 0 2;
    NextExist false 1 2 1;
    Uint false 3 3 1;
    Uint false 7 4 1;
    Uint false 1 5 1 ].

(** CSNDESCR(Target_Cell_3G_Notif_t), gsm_rlcmac.c:4196-4202 *)
Definition T_Target_Cell_3G_Notif_t : list entry :=
  [ NextExist false 1 0 1;
    Typ false 2 6 T_FDD_Target_Cell_Notif_t;
    NextExist false 1 8 1;
    Typ false 10 6 T_TDD_Target_Cell_Notif_t;
    Uint false 6 16 1 ].

(** CSNDESCR(Target_EUTRAN_Cell_Notif_t), gsm_rlcmac.c:4205-4211 *)
Definition T_Target_EUTRAN_Cell_Notif_t : list entry :=
  [ Uint false 16 0 2;
    NextExist false 1 2 1;
    Uint false 3 3 1;
    Uint false 9 4 2;
    Uint false 6 6 1 ].

(** CSNDESCR(Eutran_Ccn_Measurement_Report_Cell_t), gsm_rlcmac.c:4214-4218 *)
Definition T_Eutran_Ccn_Measurement_Report_Cell_t : list entry :=
  [ Uint false 3 0 1;
    Uint false 9 2 2;
    Uint false 6 4 1 ].

(** CSNDESCR(Eutran_Ccn_Measurement_Report_t), gsm_rlcmac.c:4222-4226 *)
Definition T_Eutran_Ccn_Measurement_Report_t : list entry :=
  [ Uint false 1 0 4;
    UintOff 2 1 4 1;
    VarTArr 4 6 6 24 T_Eutran_Ccn_Measurement_Report_Cell_t ].

(** CSNDESCR(Target_Cell_4G_Notif_t), gsm_rlcmac.c:4229-4239 *)
Definition T_Target_Cell_4G_Notif_t : list entry :=
  [ NextExist false 2 0 1;
    Uint false 10 2 2;
    Uint false 6 4 1;
    NextExist false 1 5 1;
    Typ false 6 18 T_Target_Cell_3G_Notif_t;
    NextExist false 1 24 1;
    Typ false 26 8 T_Target_EUTRAN_Cell_Notif_t;
    NextExist false 1 34 1;
    Typ false 36 32 T_Eutran_Ccn_Measurement_Report_t ].

(** CSNDESCR(Target_Cell_CSG_Notif_t), gsm_rlcmac.c:4242-4249 *)
Definition T_Target_Cell_CSG_Notif_t : list entry :=
  [ Fixed 1 0;
    Union 0 1 [Typ false 4 24 T_UTRAN_CSG_Measurement_Report_t; Typ false 4 28 T_EUTRAN_CSG_Measurement_Report_t];
    NextExist false 1 32 1;
    Typ false 36 32 T_Eutran_Ccn_Measurement_Report_t ].

(** CSNDESCR(Target_Other_RAT_2_Notif_t), gsm_rlcmac.c:4252-4257 *)
Definition T_Target_Other_RAT_2_Notif_t : list entry :=
  [ Union 0 1 [Typ false 4 68 T_Target_Cell_4G_Notif_t; Typ false 4 68 T_Target_Cell_CSG_Notif_t] ].

(** CSNDESCR(Target_Other_RAT_Notif_t), gsm_rlcmac.c:4260-4265 *)
Definition T_Target_Other_RAT_Notif_t : list entry :=
  [ Union 0 1 [Typ false 4 18 T_Target_Cell_3G_Notif_t; Typ false 4 72 T_Target_Other_RAT_2_Notif_t] ].

(** CSNDESCR(Target_Cell_t), gsm_rlcmac.c:4268-4273 *)
Definition T_Target_Cell_t : list entry :=
  [ Union 0 1 [Typ false 4 4 T_Target_Cell_GSM_Notif_t; Typ false 4 76 T_Target_Other_RAT_Notif_t] ].

(** CSNDESCR(CCN_Measurement_Report_t), gsm_rlcmac.c:4165-4170 *)
Definition T_CCN_Measurement_Report_t : list entry :=
  [ Uint false 6 0 1;
    Fixed 1 0;
    Uint false 3 1 1;
    VarTArr 1 2 4 24 T_NC_Measurements_t ].

(** CSNDESCR(PCCN_AdditionsR6_t), gsm_rlcmac.c:4276-4282 *)
Definition T_PCCN_AdditionsR6_t : list entry :=
  [ NextExist false 1 0 1;
    Uint false 1 1 1;
    UintOff 3 1 2 1;
    VarTArr 2 3 2 12 T_Measurements_3G_t ].

(** CSNDESCR(Packet_Cell_Change_Notification_t), gsm_rlcmac.c:4286-4309 *)
Definition T_Packet_Cell_Change_Notification_t : list entry :=
  [ Uint false 2 1 1;
    Uint false 5 2 1;
    Uint false 1 3 1;
    Uint false 6 0 1;
    Typ false 4 2 T_Global_TFI_t;
    Typ false 8 80 T_Target_Cell_t;
    Union 88 1 [Uint false 1 89 1; Uint false 2 89 1];
    Uint false 1 90 1;
    Uint false 1 91 1;
    Typ false 92 26 T_CCN_Measurement_Report_t;
    NextExist true 1 120 4;
    Typ false 124 15 T_PCCN_AdditionsR6_t;
    Padding ].

(** CSNDESCR(SI_Message_t), gsm_rlcmac.c:1471-1474 *)
Definition T_SI_Message_t : list entry :=
  [ Uint false 8 0 1;
    Uint false 2 1 1 ].

(** CSNDESCR(SI_Message_List_t), gsm_rlcmac.c:1477-1481 *)
Definition T_SI_Message_List_t : list entry :=
  [ RecTArr 0 1 6 10 60 T_SI_Message_t;
    Fixed 1 0;
    Uint false 1 61 1 ].

(** CSNDESCR(Unknown_SI_Message_List_t), gsm_rlcmac.c:1484-1487 *)
Definition T_Unknown_SI_Message_List_t : list entry :=
  [ Fixed 1 0;
    Uint false 1 0 1 ].

(** CSNDESCR(Packet_SI_Status_t), gsm_rlcmac.c:1490-1503 *)
Definition T_Packet_SI_Status_t : list entry :=
  [ Uint false 2 1 1;
    Uint false 5 2 1;
    Uint false 1 3 1;
    Uint false 6 0 1;
    Typ false 4 2 T_Global_TFI_t;
    Uint false 3 6 1;
    Typ false 7 62 T_SI_Message_List_t;
    Typ false 69 1 T_Unknown_SI_Message_List_t;
    Padding ].

(** CSNDESCR(MS_Radio_Access_capability_t), gsm_rlcmac.c:1006-1009 *)
Definition T_MS_Radio_Access_capability_t : list entry :=
  [ RecTArr1 0 1 69 11 759 T_MS_RA_capability_value_t;
    Padding ].

(** CSNDESCR(Packet_Request_Reference_t), gsm_rlcmac.c:1825-1828 *)
Definition T_Packet_Request_Reference_t : list entry :=
  [ Uint false 11 0 2;
    UintArr 8 2 2 2 ].

(** CSNDESCR(PacketUplinkID_t), gsm_rlcmac.c:2016-2018, 2007-2013 *)
Definition T_PacketUplinkID_t : list entry :=
  [ Choice 0 1 [(1, 0, Typ false 4 2 T_Global_TFI_t);
      (2, 2, Uint false 32 4 4);
      (3, 6, Uint false 16 4 2);
      (3, 7, Typ false 4 4 T_Packet_Request_Reference_t)] ].

(** CSNDESCR(Packet_Timing_Advance_t), gsm_rlcmac.c:90-97 *)
Definition T_Packet_Timing_Advance_t : list entry :=
  [ NextExist false 1 0 1;
    Uint false 6 1 1;
    NextExist false 2 2 1;
    Uint false 4 3 1;
    Uint false 3 4 1 ].

(** CSNDESCR(CHANGE_MARK_t), gsm_rlcmac.c:1783-1788 *)
Definition T_CHANGE_MARK_t : list entry :=
  [ Uint false 2 0 1;
    NextExist false 1 1 1;
    Uint false 2 2 1 ].

(** CSNDESCR(Indirect_encoding_t), gsm_rlcmac.c:1791-1797 *)
Definition T_Indirect_encoding_t : list entry :=
  [ Uint false 6 0 1;
    Uint false 4 1 1;
    NextExist false 1 2 1;
    Typ false 3 3 T_CHANGE_MARK_t ].

(** CSNDESCR(MobileAllocation_t), gsm_rlcmac.c:597-600 *)
Definition T_MobileAllocation_t : list entry :=
  [ UintOff 6 1 9 1;
    VarBitmap 9 0 1 8 ].

(** CSNDESCR(ARFCN_index_list_t), gsm_rlcmac.c:603-605 *)
Definition T_ARFCN_index_list_t : list entry :=
  [ RecArr 0 6 1 16 ].

(** CSNDESCR(GPRS_Mobile_Allocation_t), gsm_rlcmac.c:608-614 *)
Definition T_GPRS_Mobile_Allocation_t : list entry :=
  [ Uint false 6 0 1;
    RecArr 1 4 2 4;
    Union 6 1 [Typ false 7 10 T_MobileAllocation_t; Typ false 7 17 T_ARFCN_index_list_t] ].

(** CSNDESCR(Direct_encoding_1_t), gsm_rlcmac.c:1800-1803 *)
Definition T_Direct_encoding_1_t : list entry :=
  [ Uint false 6 0 1;
    Typ false 1 24 T_GPRS_Mobile_Allocation_t ].

(** CSNDESCR(Direct_encoding_2_t), gsm_rlcmac.c:1806-1811 *)
Definition T_Direct_encoding_2_t : list entry :=
  [ Uint false 6 0 1;
    Uint false 6 1 1;
    UintOff 4 3 2 1;
    VarArr 2 0 3 18 ].

(** CSNDESCR(Frequency_Parameters_t), gsm_rlcmac.c:1814-1822 *)
Definition T_Frequency_Parameters_t : list entry :=
  [ Uint false 3 0 1;
    Union 1 1 [Uint false 10 2 2; Typ false 2 6 T_Indirect_encoding_t; Typ false 2 25 T_Direct_encoding_1_t; Typ false 2 21 T_Direct_encoding_2_t] ].

(** CSNDESCR(StartingTime_t), gsm_rlcmac.c:58-62 *)
Definition T_StartingTime_t : list entry :=
  [ Uint false 5 0 1;
    Uint false 6 1 1;
    Uint false 5 2 1 ].

(** CSNDESCR(Starting_Frame_Number_t), gsm_rlcmac.c:74-78 *)
Definition T_Starting_Frame_Number_t : list entry :=
  [ Union 0 1 [Typ false 2 3 T_StartingTime_t; Uint false 13 2 2] ].

(** CSNDESCR(Timeslot_Allocation_t), gsm_rlcmac.c:1831-1834 *)
Definition T_Timeslot_Allocation_t : list entry :=
  [ NextExist false 1 0 1;
    Uint false 3 1 1 ].

(** CSNDESCR(Timeslot_Allocation_Power_Ctrl_Param_t), gsm_rlcmac.c:1837-1871 *)
Definition T_Timeslot_Allocation_Power_Ctrl_Param_t : list entry :=
  [ Uint false 4 0 1;
    NextExist false 2 1 1;
    Uint false 3 2 1;
    Uint false 5 3 1;
    NextExist false 2 4 1;
    Uint false 3 5 1;
    Uint false 5 6 1;
    NextExist false 2 7 1;
    Uint false 3 8 1;
    Uint false 5 9 1;
    NextExist false 2 10 1;
    Uint false 3 11 1;
    Uint false 5 12 1;
    NextExist false 2 13 1;
    Uint false 3 14 1;
    Uint false 5 15 1;
    NextExist false 2 16 1;
    Uint false 3 17 1;
    Uint false 5 18 1;
    NextExist false 2 19 1;
    Uint false 3 20 1;
    Uint false 5 21 1;
    NextExist false 2 22 1;
    Uint false 3 23 1;
    Uint false 5 24 1 ].

(** CSNDESCR(Dynamic_Allocation_t), gsm_rlcmac.c:1875-1896 *)
Definition T_Dynamic_Allocation_t : list entry :=
  [ Uint false 1 0 1;
    NextExist false 2 1 1;
    Uint false 4 2 1;
    Uint false 1 3 1;
    Uint false 1 4 1;
    NextExist false 1 5 1;
    Uint false 5 6 1;
    NextExist false 1 7 1;
    Uint false 8 8 1;
    NextExist false 1 9 1;
    Typ false 10 6 T_Starting_Frame_Number_t;
    Union 16 1 [TArr 8 17 2 16 T_Timeslot_Allocation_t; Typ false 17 25 T_Timeslot_Allocation_Power_Ctrl_Param_t] ].

(** CSNDESCR(Single_Block_Allocation_t), gsm_rlcmac.c:1899-1912 *)
Definition T_Single_Block_Allocation_t : list entry :=
  [ Uint false 3 0 1;
    NextExist false 2 1 1;
    Uint false 4 2 1;
    Uint false 5 3 1;
    NextExist false 3 4 1;
    Uint false 4 5 1;
    Uint false 1 6 1;
    Uint false 1 7 1;
    Typ false 8 6 T_Starting_Frame_Number_t ].

(** CSNDESCR(PUA_GPRS_AdditionsR99_t), gsm_rlcmac.c:2021-2024 *)
Definition T_PUA_GPRS_AdditionsR99_t : list entry :=
  [ NextExist false 1 0 4;
    Uint false 2 4 1 ].

(** CSNDESCR(PUA_GPRS_t), gsm_rlcmac.c:2027-2043 *)
Definition T_PUA_GPRS_t : list entry :=
  [ Uint false 2 0 1;
    Uint false 1 1 1;
    Typ false 2 5 T_Packet_Timing_Advance_t;
    NextExist false 1 7 1;
    Typ false 8 28 T_Frequency_Parameters_t;
    Union 36 1 [Trap (-8); Typ false 38 42 T_Dynamic_Allocation_t; Typ false 38 14 T_Single_Block_Allocation_t; Trap (-8)];
    NextExist true 1 80 4;
    Typ false 84 8 T_PUA_GPRS_AdditionsR99_t ].

(** CSNDESCR(COMPACT_ReducedMA_t), gsm_rlcmac.c:2046-2052 *)
Definition T_COMPACT_ReducedMA_t : list entry :=
  [ Uint false 7 0 1;
    VarBitmap 0 0 1 16;
    NextExist false 1 20 4;
    Uint false 6 24 1 ].

(** CSNDESCR(MultiBlock_Allocation_t), gsm_rlcmac.c:2055-2069 *)
Definition T_MultiBlock_Allocation_t : list entry :=
  [ Uint false 3 0 1;
    NextExist false 2 4 4;
    Uint false 4 8 1;
    Uint false 5 9 1;
    NextExist false 3 12 4;
    Uint false 4 16 1;
    Uint false 1 17 1;
    Uint false 1 18 1;
    Typ false 20 6 T_Starting_Frame_Number_t;
    Uint false 2 26 1 ].

(** CSNDESCR(PUA_EGPRS_00_t), gsm_rlcmac.c:2072-2104 *)
Definition T_PUA_EGPRS_00_t : list entry :=
  [ NextExist false 1 0 4;
    Uint false 32 4 4;
    NextExist false 1 8 4;
    Typ false 12 28 T_COMPACT_ReducedMA_t;
    Uint false 4 40 1;
    Uint false 1 41 1;
    Uint false 5 42 1;
    RecArr 43 4 44 12;
    Uint false 1 56 1;
    Uint false 1 57 1;
    NextExist false 1 60 4;
    Uint false 4 64 1;
    Typ false 65 5 T_Packet_Timing_Advance_t;
    NextExist false 1 72 4;
    Uint false 2 76 1;
    NextExist false 1 80 4;
    Typ false 84 28 T_Frequency_Parameters_t;
    Union 112 1 [Trap (-8); Typ false 116 42 T_Dynamic_Allocation_t; Typ false 116 28 T_MultiBlock_Allocation_t; Trap (-8)] ].

(** CSNDESCR(PUA_EGPRS_t), gsm_rlcmac.c:2107-2113 *)
Definition T_PUA_EGPRS_t : list entry :=
  [ Union 0 1 [Typ false 4 160 T_PUA_EGPRS_00_t; Trap (-8); Trap (-8); Trap (-8)] ].

(** CSNDESCR(Packet_Uplink_Assignment_t), gsm_rlcmac.c:2116-2130 *)
Definition T_Packet_Uplink_Assignment_t : list entry :=
  [ Uint false 6 0 1;
    Uint false 2 1 1;
    NextExist false 1 2 1;
    UintArr 4 4 3 4;
    Typ false 8 8 T_PacketUplinkID_t;
    Union 16 1 [Typ false 20 92 T_PUA_GPRS_t; Typ false 20 164 T_PUA_EGPRS_t];
    Padding ].

(** CSNDESCR(PacketDownlinkID_t), gsm_rlcmac.c:2148-2150, 2141-2145 *)
Definition T_PacketDownlinkID_t : list entry :=
  [ Choice 0 1 [(1, 0, Typ false 4 2 T_Global_TFI_t);
      (2, 2, Uint false 32 4 4)] ].

(** CSNDESCR(Power_Control_Parameters_t), gsm_rlcmac.c:1668-1694 *)
Definition T_Power_Control_Parameters_t : list entry :=
  [ Uint false 4 0 1;
    NextExist false 1 1 1;
    Uint false 5 2 1;
    NextExist false 1 3 1;
    Uint false 5 4 1;
    NextExist false 1 5 1;
    Uint false 5 6 1;
    NextExist false 1 7 1;
    Uint false 5 8 1;
    NextExist false 1 9 1;
    Uint false 5 10 1;
    NextExist false 1 11 1;
    Uint false 5 12 1;
    NextExist false 1 13 1;
    Uint false 5 14 1;
    NextExist false 1 15 1;
    Uint false 5 16 1 ].

(** CSNDESCR(Measurement_Mapping_struct_t), gsm_rlcmac.c:2134-2138 *)
Definition T_Measurement_Mapping_struct_t : list entry :=
  [ Typ false 0 6 T_Starting_Frame_Number_t;
    Uint false 5 6 1;
    Uint false 8 7 1 ].

(** CSNDESCR(PDA_AdditionsR99_t), gsm_rlcmac.c:2153-2165 *)
Definition T_PDA_AdditionsR99_t : list entry :=
  [ NextExist false 4 0 4;
    Uint false 5 4 1;
    Uint false 2 5 1;
    NextExist false 1 8 4;
    Uint false 4 12 1;
    NextExist false 1 16 4;
    Uint false 2 20 1;
    NextExist false 1 24 4;
    Typ false 28 28 T_COMPACT_ReducedMA_t ].

(** CSNDESCR(Packet_Downlink_Assignment_t), gsm_rlcmac.c:2168-2209 *)
Definition T_Packet_Downlink_Assignment_t : list entry :=
  [ Uint false 6 0 1;
    Uint false 2 1 1;
    NextExist false 1 4 4;
    UintArr 4 4 8 4;
    Typ false 12 8 T_PacketDownlinkID_t;
    Fixed 1 0;
    Uint false 2 20 1;
    Uint false 1 21 1;
    Uint false 1 22 1;
    Uint false 8 23 1;
    Typ false 24 5 T_Packet_Timing_Advance_t;
    NextExist false 3 32 4;
    Uint false 4 36 1;
    Uint false 1 37 1;
    Uint false 1 38 1;
    NextExist false 1 40 4;
    Typ false 44 28 T_Frequency_Parameters_t;
    NextExist false 1 72 4;
    Uint false 5 76 1;
    NextExist false 1 80 4;
    Typ false 84 17 T_Power_Control_Parameters_t;
    NextExist false 1 104 4;
    Typ false 108 6 T_Starting_Frame_Number_t;
    NextExist false 1 114 1;
    Typ false 116 8 T_Measurement_Mapping_struct_t;
    NextExist true 1 124 4;
    Typ false 128 56 T_PDA_AdditionsR99_t;
    Padding ].

(** CSNDESCR(Packet_Cell_Change_Continue_t), gsm_rlcmac.c:4313-4325 *)
Definition T_Packet_Cell_Change_Continue_t : list entry :=
  [ Uint false 6 0 1;
    Uint false 2 1 1;
    Fixed 1 0;
    Typ false 2 2 T_Global_TFI_t;
    NextExist false 3 4 1;
    Uint false 10 6 2;
    Uint false 6 8 1;
    Uint false 2 9 1;
    Padding ].

(** CSNDESCR(PNCD_Container_Without_ID_t), gsm_rlcmac.c:4336-4338 *)
Definition T_PNCD_Container_Without_ID_t : list entry :=
  [ UintArr 8 19 0 19 ].

(** CSNDESCR(PNCD_Container_With_ID_t), gsm_rlcmac.c:4329-4333 *)
Definition T_PNCD_Container_With_ID_t : list entry :=
  [ Uint false 10 0 2;
    Uint false 6 2 1;
    UintArr 8 17 3 17 ].

(** CSNDESCR(PNCDContainer_t), gsm_rlcmac.c:4348-4350, 4341-4345 *)
Definition T_PNCDContainer_t : list entry :=
  [ Choice 0 1 [(1, 0, Typ false 2 19 T_PNCD_Container_Without_ID_t);
      (1, 1, Typ false 2 20 T_PNCD_Container_With_ID_t)] ].

(** CSNDESCR(Packet_Neighbour_Cell_Data_t), gsm_rlcmac.c:4353-4365 *)
Definition T_Packet_Neighbour_Cell_Data_t : list entry :=
  [ Uint false 6 0 1;
    Uint false 2 1 1;
    Fixed 1 0;
    Typ false 2 2 T_Global_TFI_t;
    Uint false 2 4 1;
    Uint false 1 5 1;
    Uint false 5 6 1;
    Typ false 8 22 T_PNCDContainer_t;
    Padding ].

(** ** The uplink control block *)

(** sizeof(RlcMacUplink_t), gsm_rlcmac.h; the union u is at 0, NrOfBits at 1376. *)
Definition UL_SIZE : Z := 1380.
(** sizeof(MS_Radio_Access_capability_t) *)
Definition RACAP_SIZE : Z := 760.

(** The dispatch of decode_gsm_rlcmac_uplink, gsm_rlcmac.c:5390-5470, on the message types of gsm_rlcmac.h:5058-5071:
    the table and the size of the member of the union it fills. *)
Definition ul_message (mt : Z) : option (list entry * Z) :=
  match mt with
  | 0 => Some (T_Packet_Cell_Change_Failure_t, 92)
  | 1 => Some (T_Packet_Control_Acknowledgement_t, 28)
  | 2 => Some (T_Packet_Downlink_Ack_Nack_t, 56)
  | 3 => Some (T_Packet_Uplink_Dummy_Control_Block_t, 8)
  | 4 => Some (T_Packet_Measurement_Report_t, 212)
  | 5 => Some (T_Packet_Resource_Request_t, 1308)
  | 6 => Some (T_Packet_Mobile_TBF_Status_t, 9)
  | 7 => Some (T_Packet_PSI_Status_t, 40)
  | 8 => Some (T_EGPRS_PD_AckNack_t, 284)
  | 9 => Some (T_Packet_Pause_t, 16)
  | 10 => Some (T_Packet_Enh_Measurement_Report_t, 1376)
  | 11 => Some (T_Additional_MS_Rad_Access_Cap_t, 772)
  | 12 => Some (T_Packet_Cell_Change_Notification_t, 140)
  | 13 => Some (T_Packet_SI_Status_t, 70)
  | _ => None
  end.

(** Bit i of a string of octets, most significant bit of an octet first (bitvec_unpack, bitvec_get_bit_pos). *)
Definition bit_of (msg : list Z) (i : Z) : bool := Z.testbit (nth (Z.to_nat (i / 8)) msg 0) (7 - i mod 8).

(** decode_gsm_rlcmac_uplink, gsm_rlcmac.c:5362-5484, on the octets of the bit vector and a structure
    of zeros; the code returned is negative exactly in the case [Stop] (a positive status becomes 0, 5478-5481). *)
Definition decode_ul (msg : list Z) : result :=
  let v := bit_of msg in
  let n := 8 * Z.of_nat (length msg) in
  let s := start 184 in
  let payload_type := rfield v n 2 0 in
  if (payload_type =? 0) || (payload_type =? 3) then Stop ERROR_GENERAL s
  else
    let s := put (1376, 1378) 2 s 1376 184 in
    let mt := rfield v n 6 8 in
    let s := put8 (0, 1) s 0 mt in
    match ul_message mt with
    | Some (t, size) => table v n (dec v n) t 0 (0, size) s
    | None => Stop (-1) s
    end.

(** decode_gsm_ra_cap, gsm_rlcmac.c:6158-6181. *)
Definition decode_racap (msg : list Z) : result :=
  let n := 8 * Z.of_nat (length msg) in
  table (bit_of msg) n (dec (bit_of msg) n) T_MS_Radio_Access_capability_t 0 (0, RACAP_SIZE) (start n).

(** The procedure that gets the message, gprs_rlcmac_pdch::rcv_control_block, pdch.cpp:930-957. *)
Inductive handler := OnControlAck | OnDlAckNack | OnEgprsDlAckNack | OnResourceRequest | OnMeasurementReport
                   | OnDummy | OnCellChangeNotification | OnUnknown.
Definition dispatch (mt : Z) : handler :=
  match mt with
  | 1 => OnControlAck
  | 2 => OnDlAckNack
  | 8 => OnEgprsDlAckNack
  | 5 => OnResourceRequest
  | 4 => OnMeasurementReport
  | 3 => OnDummy
  | 12 => OnCellChangeNotification
  | _ => OnUnknown
  end.

(** gprs_rlcmac_pdch::rcv_control_block, pdch.cpp:901-963: the procedure called with the decoded
    structure, or nothing.  It looks at u.MESSAGE_TYPE (byte 0) of the decoded structure. *)
Definition rcv_control_block (msg : list Z) : option (handler * state) :=
  match decode_ul msg with
  | Go s => Some (dispatch (get8 s 0), s)
  | _ => None
  end.

(** ** Members of the decoded structure, by their offsets in RlcMacUplink_t (gsm_rlcmac.h) *)
Definition u8 (s : state) (o : Z) : Z := get8 s o.
Definition u16 (s : state) (o : Z) : Z := get8 s o + 256 * get8 s (o + 1).
Definition u32 (s : state) (o : Z) : Z := u16 s o + 65536 * u16 s (o + 2).
(** Packet_Control_Acknowledgement_t: TLLI, CTRL_ACK *)
Definition pca_tlli (s : state) : Z := u32 s 4.
Definition pca_ctrl_ack (s : state) : Z := u8 s 8.
(** Packet_Downlink_Ack_Nack_t: DOWNLINK_TFI, Ack_Nack_Description.FINAL_ACK_INDICATION,
    .STARTING_SEQUENCE_NUMBER, .RECEIVED_BLOCK_BITMAP[k] *)
Definition pda_tfi (s : state) : Z := u8 s 4.
Definition pda_final (s : state) : Z := u8 s 5.
Definition pda_ssn (s : state) : Z := u8 s 6.
Definition pda_rbb (s : state) (k : Z) : Z := u8 s (7 + k).
(** Packet_Resource_Request_t: ID.UnionType, ID.u.TLLI, ID.u.Global_TFI.UnionType, ID.u.Global_TFI.u *)
Definition prr_id_type (s : state) : Z := u8 s 8.
Definition prr_tlli (s : state) : Z := u32 s 12.
Definition prr_tfi_type (s : state) : Z := u8 s 12.
Definition prr_tfi (s : state) : Z := u8 s 13.
(** Packet_Measurement_Report_t: TLLI *)
Definition pmr_tlli (s : state) : Z := u32 s 4.
(** Packet_Cell_Change_Notification_t: Global_TFI.UnionType, Global_TFI.u, Target_Cell.UnionType,
    Target_Cell.u.Target_Cell_GSM_Notif.ARFCN, .BSIC *)
Definition ccn_tfi_type (s : state) : Z := u8 s 4.
Definition ccn_tfi (s : state) : Z := u8 s 5.
Definition ccn_target_type (s : state) : Z := u8 s 8.
Definition ccn_arfcn (s : state) : Z := u16 s 12.
Definition ccn_bsic (s : state) : Z := u8 s 14.
(** EGPRS_PD_AckNack_t: DOWNLINK_TFI, EGPRS_AckNack.Desc.FINAL_ACK_INDICATION, .BEGINNING_OF_WINDOW,
    .END_OF_WINDOW, .STARTING_SEQUENCE_NUMBER, .Exist_CRBB, .URBB_LENGTH, .URBB[k] *)
Definition epda_tfi (s : state) : Z := u8 s 4.
Definition epda_final (s : state) : Z := u8 s 208.
Definition epda_bow (s : state) : Z := u8 s 209.
Definition epda_eow (s : state) : Z := u8 s 210.
Definition epda_ssn (s : state) : Z := u16 s 212.
Definition epda_exist_crbb (s : state) : Z := u8 s 216.
Definition epda_urbb_length (s : state) : Z := u8 s 238.
Definition epda_urbb (s : state) (k : Z) : Z := u8 s (240 + k).
