(** The layouts of trace header extensions that the library offers for Sercel
    recording systems (CommonSEGD.hpp:1539-1540, CommonSEGD.cpp:800-992), as
    constants of the program.  No proofs in this file. *)
From Verif Require Import Base TraceHdr SegyTypes SegdTypes.
Local Open Scope string_scope.

(** CommonSEGD.cpp:800-867 *)
Definition sercel_428xl : ext_layouts :=
  [[(0, ("R_LINE", U24)); (3, ("R_POINT", U24)); (6, ("R_POINT_IDX", U8)); (7, ("SAMP_NUM", U24));
     (20, ("SENSOR_TYPE", U8))];
   [(0, ("REC_X", F64)); (8, ("REC_Y", F64)); (16, ("R_ELEV", F32)); (20, ("SERCEL_SENSOR_TYPE", U8));
     (28, ("TRACE_NUMBER", U32))];
   [(0, ("RESIST_LOW_LIMIT", F32)); (4, ("RESIST_HIGH_LIMIT", F32)); (8, ("RESIST_VALUE", F32));
     (12, ("TILT_LIMIT", F32)); (16, ("TILT_VALUE", F32)); (20, ("RESIST_ERROR", U8));
     (21, ("TILT_ERROR", U8))];
   [(0, ("CAPACIT_LOW_LIMIT", F32)); (4, ("CAPACIT_HIGH_LIMIT", F32)); (8, ("CAPACIT_VALUE", F32));
     (12, ("CUT_OFF_LOW_LIMIT", F32)); (16, ("CUT_OFF_HIGH_LIMIT", F32)); (20, ("CUT_OFF_VALUE", F32));
     (24, ("CAPACIT_ERROR", U8)); (25, ("CUT_OFF_ERROR", U8))];
   [(0, ("LEAKAGE_LIMIT", F32)); (4, ("LEAKAGE_VALUE", F32)); (24, ("LEAKAGE_ERROR", U8))];
   [(0, ("UNIT_TYPE", U8)); (1, ("UNIT_SERIAL_NUM", U24)); (4, ("CHANNEL_NUM", U8));
     (8, ("FDU_ASS_TYPE", U8)); (9, ("FDU_ASS_SERIAL", U24)); (12, ("FDU_ASS_LOC", U8));
     (16, ("FDU_UNIT_TYPE", U8)); (17, ("CHANNEL_TYPE", U8)); (20, ("SENSOR_SENSITIVITY", F32))];
   [(0, ("CONTROL_UNIT_TYPE", U8)); (1, ("CONTROL_UNIT_SERIAL", U24)); (4, ("CHAN_GAIN_SCALE", U8));
     (5, ("CHAN_FILTER", U8)); (6, ("CHAN_DATA_ERROR", U8)); (7, ("CHAN_EDIT_STATUS", U8));
     (8, ("SAMP_TO_V_CONV", F32)); (12, ("NUM_OF_STACKS_NOISY", U8)); (13, ("NUM_OF_STACKS_LOW", U8));
     (14, ("CHAN_TYPE_ID", U8)); (15, ("CHAN_PROCESS", U8)); (16, ("TRC_MAX_VALUE", F32));
     (20, ("TRC_MAX_TIME", U32)); (24, ("NUM_OF_INTERPOLAT", U32))]].

(** CommonSEGD.cpp:869-931 *)
Definition sercel_428 : ext_layouts :=
  [[(0, ("R_LINE", U24)); (3, ("R_POINT", U24)); (6, ("R_POINT_IDX", U8)); (7, ("SAMP_NUM", U24));
     (20, ("SENSOR_TYPE", U8))];
   [(0, ("REC_X", F64)); (8, ("REC_Y", F64)); (16, ("R_ELEV", F32)); (20, ("SERCEL_SENSOR_TYPE", U8));
     (28, ("TRACE_NUMBER", U32))];
   [(0, ("DC_OFFSET", F32))];
   [(0, ("CAPACIT_LOW_LIMIT", F32)); (4, ("CAPACIT_HIGH_LIMIT", F32)); (8, ("CAPACIT_VALUE", F32));
     (12, ("CUT_OFF_LOW_LIMIT", F32)); (16, ("CUT_OFF_HIGH_LIMIT", F32)); (20, ("CUT_OFF_VALUE", F32));
     (24, ("CAPACIT_ERROR", U8)); (25, ("CUT_OFF_ERROR", U8))];
   [(0, ("LEAKAGE_LIMIT", F32)); (4, ("LEAKAGE_VALUE", F32)); (24, ("LEAKAGE_ERROR", U8))];
   [(0, ("UNIT_TYPE", U8)); (1, ("UNIT_SERIAL_NUM", U24)); (4, ("CHANNEL_NUM", U8));
     (8, ("FDU_ASS_TYPE", U8)); (9, ("FDU_ASS_SERIAL", U24)); (12, ("FDU_ASS_LOC", U8));
     (16, ("FDU_UNIT_TYPE", U8)); (20, ("SENSOR_SENSITIVITY", F32)); (24, ("EXT_UNIT_SERIAL", U32));
     (28, ("EXT_FDU_ASS_SERIAL", U32))];
   [(0, ("CONTROL_UNIT_TYPE", U8)); (1, ("CONTROL_UNIT_SERIAL", U24)); (4, ("CHAN_GAIN_SCALE", U8));
     (5, ("CHAN_FILTER", U8)); (6, ("CHAN_DATA_ERROR", U8)); (7, ("CHAN_EDIT_STATUS", U8));
     (8, ("SAMP_TO_V_CONV", F32)); (13, ("REMOVED_OFFSET", U8)); (14, ("CHAN_TYPE_ID", U8));
     (15, ("CHAN_PROCESS", U8)); (16, ("ANAL_LOW_CUR_FILT", F32)); (20, ("DIG_LOW_CUT_FILT", F32));
     (24, ("NUM_OF_EDITIONS", U32)); (28, ("COMP_LOW_CUT_FILT", F32))]].

(** CommonSEGD.cpp:933-992 *)
Definition sercel_408 : ext_layouts :=
  [[(0, ("R_LINE", U24)); (3, ("R_POINT", U24)); (6, ("R_POINT_IDX", U8)); (7, ("SAMP_NUM", U24));
     (20, ("SENSOR_TYPE", U8))];
   [(0, ("REC_X", F64)); (8, ("REC_Y", F64)); (16, ("R_ELEV", F32)); (20, ("SERCEL_SENSOR_TYPE", U8))];
   [(0, ("DC_OFFSET", F32))];
   [(0, ("CAPACIT_LOW_LIMIT", F32)); (4, ("CAPACIT_HIGH_LIMIT", F32)); (8, ("CAPACIT_VALUE", F32));
     (12, ("CUT_OFF_LOW_LIMIT", F32)); (16, ("CUT_OFF_HIGH_LIMIT", F32)); (20, ("CUT_OFF_VALUE", F32));
     (24, ("CAPACIT_ERROR", U8)); (25, ("CUT_OFF_ERROR", U8))];
   [(0, ("LEAKAGE_LIMIT", F32)); (4, ("LEAKAGE_VALUE", F32)); (24, ("LEAKAGE_ERROR", U8))];
   [(0, ("UNIT_TYPE", U8)); (1, ("UNIT_SERIAL_NUM", U24)); (4, ("CHANNEL_NUM", U8));
     (8, ("FDU_ASS_TYPE", U8)); (9, ("FDU_ASS_SERIAL", U24)); (12, ("FDU_ASS_LOC", U8));
     (16, ("FDU_UNIT_TYPE", U8)); (17, ("CHANNEL_TYPE", U8)); (20, ("SENSOR_SENSITIVITY", F32))];
   [(0, ("CONTROL_UNIT_TYPE", U8)); (1, ("CONTROL_UNIT_SERIAL", U24)); (4, ("CHAN_GAIN_SCALE", U8));
     (5, ("CHAN_FILTER", U8)); (6, ("CHAN_DATA_ERROR", U8)); (7, ("CHAN_EDIT_STATUS", U8));
     (8, ("SAMP_TO_V_CONV", F32)); (14, ("CHAN_TYPE_ID", U8)); (15, ("CHAN_PROCESS", U8));
     (16, ("TRC_MAX_VALUE", F32)); (20, ("TRC_MAX_TIME", U32)); (24, ("NUM_OF_INTERPOLAT", U32));
     (28, ("COMP_LOW_CUT_FILT", F32))]].
