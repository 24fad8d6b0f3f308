(** The descriptions of header members and trace header words.  Models
    [name_as_string] of the header classes (CommonSEGY.cpp:326-329,
    CommonSEGD.cpp:308-798) and [CommonSEGY::trace_header_description].

    A pair: the enumerators of [Name] in order (the first one has the number
    0), and the array of strings.  No proofs in this file. *)
From Coq Require Import String.
From Verif Require Import Base.
Local Open Scope string_scope.
Local Open Scope list_scope.

(** CommonSEGY.hpp:94-139, CommonSEGY.cpp:279-324 *)
Definition n_BinaryHeader : list string * list string :=
  (["JOB_ID"; "LINE_NUM"; "REEL_NUM"; "TR_PER_ENS"; "AUX_PER_ENS"; "SAMP_INT"; "SAMP_INT_ORIG"; "SAMP_PER_TR";
   "SAMP_PER_TR_ORIG"; "FORMAT_CODE"; "ENS_FOLD"; "SORT_CODE"; "VERT_SUM_CODE"; "SW_FREQ_AT_START";
   "SW_FREQ_AT_END"; "SW_LENGTH"; "SW_TYPE_CODE"; "SW_CH_TR_NUM"; "TAPER_AT_START"; "TAPER_AT_END";
   "TAPER_TYPE"; "CORR_TRACES"; "BIN_GAIN_RECOV"; "AMP_RECOV_METH"; "MEASURE_SYSTEM"; "IMPULSE_SIG_POL";
   "VIB_POL_CODE"; "EXT_TR_PER_ENS"; "EXT_AUX_PER_ENS"; "EXT_SAMP_PER_TR"; "EXT_SAMP_INT"; "EXT_SAMP_INT_ORIG";
   "EXT_SAMP_PER_TR_ORIG"; "EXT_ENS_FOLD"; "ENDIANNESS"; "SEGY_REV_MAJOR_VER"; "SEGY_REV_MINOR_VER";
   "FIXED_TR_LENGTH"; "EXT_TEXT_HEADERS_NUM"; "MAX_NUM_ADD_TR_HEADERS"; "TIME_BASIS_CODE"; "NUM_OF_TR_IN_FILE";
   "BYTE_OFF_OF_FIRST_TR"; "NUM_OF_TRAILER_STANZA"],
   ["Job identification number"; "Line number"; "Reel number"; "Number of data traces per ensemble";
   "Number of auxiliary traces per ensemble"; "Sample interval";
   "Sample interval of original field recording."; "Number of samples per data trace";
   "Number of samples per data trace of original field recording"; "Data sample format code"; "Ensemble fold";
   "Trace sorting code"; "Vertical sum code"; "Sweep frequency at start (Hz)"; "Sweep frequency at end (Hz)";
   "Sweep length (ms)"; "Sweep type code"; "Trace number of sweep channel";
   "Sweep trace taper length in ms at start if tapered"; "Sweep trace taper length in ms at end"; "Taper type";
   "Correlated data traces"; "Binary gain recovered"; "Amplitude recovery method"; "Measure system";
   "Impulse signal polarity"; "Vibratory polarity code"; "Extended number of data traces per ensemble";
   "Extended number of auxiliary traces per ensemble"; "Extended number of samples per data trace";
   "Extended sample interval"; "Extended sample interval of original field recording";
   "Extended number of samples per data trace in original recording"; "Extended ensemble fold";
   "Integer constant used to detect the byte ordering"; "Major SEG-Y Format Revision Number";
   "Minor SEG-Y Format Revision Number"; "Fixed length trace flag";
   "Number of Extended Textual File Header records"; "Maximum number of additional trace headers";
   "Time basis code"; "Number of traces in this file"; "Byte offset of first traces relative to start of file";
   "Number of data trailer stanza records"]).

(** CommonSEGD.hpp:73-96, CommonSEGD.cpp:283-306 *)
Definition n_GeneralHeader : list string * list string :=
  (["FILE_NUMBER"; "FORMAT_CODE"; "GENERAL_CONSTANTS"; "YEAR"; "GENERAL_HEADER_BLOCKS"; "DAY"; "HOUR"; "MINUTE";
   "SECOND"; "MANUFACTURERS_CODE"; "MANUFACTURERS_NUMBER"; "BYTES_PER_SCAN"; "BASE_SCAN_INTERVAL"; "POLARITY";
   "SCANS_PER_BLOCK"; "RECORD_TYPE"; "RECORD_LENGTH"; "SCAN_TYPES_PER_RECORD"; "CHANNEL_SETS_PER_SCAN_TYPE";
   "SKEW_BLOCKS"; "EXTENDED_HEADER_BLOCKS"; "EXTERNAL_HEADER_BLOCKS"],
   ["File number"; "Format code"; "General constants"; "Last two digits of year";
   "Number of additional blocks in General Header"; "Julian day"; "Hour of dat (Greenwich Mean Time)";
   "Minute of hour"; "Second of minute"; "Manufacturer's code"; "Manufacturer's serial number";
   "Bytes per scan are utilized in the multiplexed formats"; "Base scan interval"; "Polarity";
   "Number of scans in a block. It is valid only for multiplexed data"; "Record type";
   "Record length from time zero"; "Scan types per record"; "Number of channel sets per scan type";
   "Number of 32 byte fields added to the end of each scan type header"; "Extended header length";
   "External header length"]).

(** CommonSEGD.hpp:131-145, CommonSEGD.cpp:313-327 *)
Definition n_GeneralHeader2 : list string * list string :=
  (["EXPANDED_FILE_NUMBER"; "EXT_CH_SETS_PER_SCAN_TYPE"; "EXTEDNDED_HEADER_BLOCKS"; "EXTERNAL_HEADER_BLOCKS";
   "EXTENDED_SKEW_BLOCKS"; "SEGD_REVISION_MAJOR"; "SEGD_REVISION_MINOR"; "GEN_TRAILER_NUMBER_OF_BLOCKS";
   "EXTENDED_RECORD_LENGTH"; "RECORD_SET_NUMBER"; "EXT_NUM_ADD_BLKS_IN_GEN_HDR"; "DOMINANT_SAMPLING_INT";
   "GEN_HEADER_BLOCK_NUM"],
   ["Expanded File Number"; "Extended Channel Sets per Scan Types"; "Extended Header Blocks";
   "External Header Blocks"; "Extended_skew_blocks"; "SEG-D Revision Number Major";
   "SEG-D Revision Number Minor"; "The number of 32 bytr blocks to be used to General Trailers";
   "Extended Record Length"; "Record set number"; "Extended Number of additional Blocks in the General Header";
   "Dominant Sampling Interval"; "General Header Block Number"]).

(** CommonSEGD.hpp:230-240, CommonSEGD.cpp:334-344 *)
Definition n_GeneralHeaderN : list string * list string :=
  (["EXPANDED_FILE_NUMBER"; "SOURCE_LINE_NUMBER"; "SOURCE_POINT_NUMBER"; "SOURCE_POINT_INDEX"; "PHASE_CONTROL";
   "TYPE_VIBRATOR"; "PHASE_ANGLE"; "GEN_HEADER_BLOCK_NUM"; "SOURCE_SET_NUMBER"],
   ["Expanded File Number"; "Source Line Number"; "Source Point Number"; "Source Point Index"; "Phase Control";
   "Type Vibrator"; "Phase Angle"; "General Header Block Number"; "Source Set Number"]).

(** CommonSEGD.hpp:277-285, CommonSEGD.cpp:351-359 *)
Definition n_GeneralHeader3 : list string * list string :=
  (["TIME_ZERO"; "RECORD_SIZE"; "DATA_SIZE"; "HEADER_SIZE"; "EXTD_REC_MODE"; "REL_TIME_MODE";
   "GEN_HEADER_BLOCK_NUM"],
   ["Time Zero for this record"; "The total size of the SEG-D record in bytes";
   "The total size of the headers and data in this record in bytes";
   "The total size of the headers in this record in bytes";
   "1 for Extended Recording Mode, 0 for normal record";
   "1 if this record does not contain absolute timestamps"; "General Header Block Number"]).

(** CommonSEGD.hpp:310-314, CommonSEGD.cpp:366-370 *)
Definition n_GeneralHeaderVes : list string * list string :=
  (["ABBR_VESSEL_OR_CREW_NAME"; "VESSEL_OR_CREW_NAME"; "GEN_HEADER_TYPE"],
   ["Abbreviated vessel or crew name"; "Vessel or crew name"; "General header type"]).

(** CommonSEGD.hpp:345-348, CommonSEGD.cpp:377-380 *)
Definition n_GeneralHeaderSur : list string * list string :=
  (["SURVEY_ARE_NAME"; "GEN_HEADER_TYPE"],
   ["Survey Area Name"; "General header type"]).

(** CommonSEGD.hpp:379-382, CommonSEGD.cpp:387-390 *)
Definition n_GeneralHeaderCli : list string * list string :=
  (["CLIENT_NAME"; "GEN_HEADER_TYPE"],
   ["Client Area Name"; "General header type"]).

(** CommonSEGD.hpp:414-418, CommonSEGD.cpp:397-401 *)
Definition n_GeneralHeaderJob : list string * list string :=
  (["ABBR_JOB_ID"; "JOB_ID"; "GEN_HEADER_TYPE"],
   ["Abbr Job Identification"; "Job Identification"; "General header type"]).

(** CommonSEGD.hpp:450-454, CommonSEGD.cpp:408-412 *)
Definition n_GeneralHeaderLin : list string * list string :=
  (["LINE_ABBR"; "LINE_ID"; "GEN_HEADER_TYPE"],
   ["Line Abbreviation"; "Line Identification"; "General header type"]).

(** CommonSEGD.hpp:500-518, CommonSEGD.cpp:419-437 *)
Definition n_GeneralHeaderVib : list string * list string :=
  (["EXPANDED_FILE_NUMBER"; "SOURCE_LINE_NUMBER"; "SOURCE_POINT_NUMBER"; "SOURCE_POINT_INDEX"; "PHASE_CONTROL";
   "TYPE_VIBRATOR"; "PHASE_ANGLE"; "SOURCE_ID"; "SOURCE_SET_NUM"; "RESHOOT_INDEX"; "GROUP_INDEX";
   "DEPTH_INDEX"; "OFFSET_CROSSLINE"; "OFFSET_INLINE"; "SIZE"; "OFFSET_DEPTH"; "GEN_HEADER_TYPE"],
   ["Expanded File Number"; "Source Line Number"; "Source Point Number"; "Source Point Index"; "Phase Control";
   "Type Vibrator"; "Phase Angle"; "Source Id"; "Source Set No"; "Re-shoot Index"; "Group Index";
   "Depth Index"; "Offset Cross-line"; "Offset In-line"; "Size"; "Offset Depth"; "General header type"]).

(** CommonSEGD.hpp:564-582, CommonSEGD.cpp:444-462 *)
Definition n_GeneralHeaderExp : list string * list string :=
  (["EXPANDED_FILE_NUMBER"; "SOURCE_LINE_NUMBER"; "SOURCE_POINT_NUMBER"; "SOURCE_POINT_INDEX"; "DEPTH";
   "CHARGE_LENGTH"; "SOIL_TYPE"; "SOURCE_ID"; "SOURCE_SET_NUM"; "RESHOOT_INDEX"; "GROUP_INDEX"; "DEPTH_INDEX";
   "OFFSET_CROSSLINE"; "OFFSET_INLINE"; "SIZE"; "OFFSET_DEPTH"; "GEN_HEADER_TYPE"],
   ["Expanded File Number"; "Source Line Number"; "Source Point Number"; "Source Point Index"; "Depth";
   "Charge Length"; "Soil Type"; "Source Id"; "Source Set No"; "Re-shoot Index"; "Group Index"; "Depth Index";
   "Offset Cross-line"; "Offset In-line"; "Size"; "Offset Depth"; "General header type"]).

(** CommonSEGD.hpp:627-644, CommonSEGD.cpp:469-486 *)
Definition n_GeneralHeaderAir : list string * list string :=
  (["EXPANDED_FILE_NUMBER"; "SOURCE_LINE_NUMBER"; "SOURCE_POINT_NUMBER"; "SOURCE_POINT_INDEX"; "DEPTH";
   "AIR_PRESSURE"; "SOURCE_ID"; "SOURCE_SET_NUM"; "RESHOOT_INDEX"; "GROUP_INDEX"; "DEPTH_INDEX";
   "OFFSET_CROSSLINE"; "OFFSET_INLINE"; "SIZE"; "OFFSET_DEPTH"; "GEN_HEADER_TYPE"],
   ["Expanded File Number"; "Source Line Number"; "Source Point Number"; "Source Point Index"; "Depth";
   "Air pressure"; "Source Id"; "Source Set No"; "Re-shoot Index"; "Group Index"; "Depth Index";
   "Offset Cross-line"; "Offset In-line"; "Size"; "Offset Depth"; "General header type"]).

(** CommonSEGD.hpp:689-706, CommonSEGD.cpp:493-510 *)
Definition n_GeneralHeaderWat : list string * list string :=
  (["EXPANDED_FILE_NUMBER"; "SOURCE_LINE_NUMBER"; "SOURCE_POINT_NUMBER"; "SOURCE_POINT_INDEX"; "DEPTH";
   "AIR_PRESSURE"; "SOURCE_ID"; "SOURCE_SET_NUM"; "RESHOOT_INDEX"; "GROUP_INDEX"; "DEPTH_INDEX";
   "OFFSET_CROSSLINE"; "OFFSET_INLINE"; "SIZE"; "OFFSET_DEPTH"; "GEN_HEADER_TYPE"],
   ["Expanded File Number"; "Source Line Number"; "Source Point Number"; "Source Point Index"; "Depth";
   "Air pressure"; "Source Id"; "Source Set No"; "Re-shoot Index"; "Group Index"; "Depth Index";
   "Offset Cross-line"; "Offset In-line"; "Size"; "Offset Depth"; "General header type"]).

(** CommonSEGD.hpp:751-768, CommonSEGD.cpp:517-534 *)
Definition n_GeneralHeaderEle : list string * list string :=
  (["EXPANDED_FILE_NUMBER"; "SOURCE_LINE_NUMBER"; "SOURCE_POINT_NUMBER"; "SOURCE_POINT_INDEX"; "SOURCE_TYPE";
   "MOMENT"; "SOURCE_ID"; "SOURCE_SET_NUM"; "RESHOOT_INDEX"; "GROUP_INDEX"; "DEPTH_INDEX"; "OFFSET_CROSSLINE";
   "OFFSET_INLINE"; "SIZE"; "OFFSET_DEPTH"; "GEN_HEADER_TYPE"],
   ["Expanded File Number"; "Source Line Number"; "Source Point Number"; "Source Point Index"; "Source type";
   "Moment"; "Source Id"; "Source Set No"; "Re-shoot Index"; "Group Index"; "Depth Index"; "Offset Cross-line";
   "Offset In-line"; "Size"; "Offset Depth"; "General header type"]).

(** CommonSEGD.hpp:811-826, CommonSEGD.cpp:541-556 *)
Definition n_GeneralHeaderOth : list string * list string :=
  (["EXPANDED_FILE_NUMBER"; "SOURCE_LINE_NUMBER"; "SOURCE_POINT_NUMBER"; "SOURCE_POINT_INDEX"; "SOURCE_ID";
   "SOURCE_SET_NUM"; "RESHOOT_INDEX"; "GROUP_INDEX"; "DEPTH_INDEX"; "OFFSET_CROSSLINE"; "OFFSET_INLINE";
   "SIZE"; "OFFSET_DEPTH"; "GEN_HEADER_TYPE"],
   ["Expanded File Number"; "Source Line Number"; "Source Point Number"; "Source Point Index"; "Source Id";
   "Source Set No"; "Re-shoot Index"; "Group Index"; "Depth Index"; "Offset Cross-line"; "Offset In-line";
   "Size"; "Offset Depth"; "General header type"]).

(** CommonSEGD.hpp:861-868, CommonSEGD.cpp:563-570 *)
Definition n_GeneralHeaderAdd : list string * list string :=
  (["TIME"; "SOURCCE_STATUS"; "SOURCE_ID"; "SOURCE_MOVING"; "ERROR_DESCRIPTION"; "GEN_HEADER_TYPE"],
   ["Time"; "Source Status"; "Source Id"; "Source Moving"; "Error description"; "General header type"]).

(** CommonSEGD.hpp:914-932, CommonSEGD.cpp:577-595 *)
Definition n_GeneralHeaderSaux : list string * list string :=
  (["SOURCE_ID"; "SCAN_TYPE_NUM_1"; "CH_SET_NUM_1"; "TRACE_NUM_1"; "SCAN_TYPE_NUM_2"; "CH_SET_NUM_2";
   "TRACE_NUM_2"; "SCAN_TYPE_NUM_3"; "CH_SET_NUM_3"; "TRACE_NUM_3"; "SCAN_TYPE_NUM_4"; "CH_SET_NUM_4";
   "TRACE_NUM_4"; "SCAN_TYPE_NUM_5"; "CH_SET_NUM_5"; "TRACE_NUM_5"; "GEN_HEADER_TYPE"],
   ["Source Id"; "Scan Type Number 1"; "Channel Set Number 1"; "Trace Number 1"; "Scan Type Number 2";
   "Channel Set Number 2"; "Trace Number 2"; "Scan Type Number 3"; "Channel Set Number 3"; "Trace Number 3";
   "Scan Type Number 4"; "Channel Set Number 4"; "Trace Number 4"; "Scan Type Number 5";
   "Channel Set Number 5"; "Trace Number 5"; "General header type"]).

(** CommonSEGD.hpp:964-967, CommonSEGD.cpp:602-605 *)
Definition n_GeneralHeaderCoord : list string * list string :=
  (["COORD_REF_SYS"; "GEN_HEADER_TYPE"],
   ["Coordinate Reference System (CRS) identification"; "General header type"]).

(** CommonSEGD.hpp:1004-1013, CommonSEGD.cpp:612-621 *)
Definition n_GeneralHeaderPos1 : list string * list string :=
  (["TIME_OF_POSITION"; "TIME_OF_MEASUREMENT"; "VERTICAL_ERROR"; "HOR_ERR_SEMI_MAJOR"; "HOR_ERR_SEMI_MINOR";
   "HOR_ERR_ORIENTATION"; "POSITION_TYPE"; "GEN_HEADER_TYPE"],
   ["Time of position"; "Time of measurement/calculation"; "Vertical error";
   "Horizontal error ellipse semi-major dimension"; "Horizontal error ellipse semi-minor dimension";
   "Horizontal error ellipse orientation"; "Position Type"; "General header type"]).

(** CommonSEGD.hpp:1049-1057, CommonSEGD.cpp:628-636 *)
Definition n_GeneralHeaderPos2 : list string * list string :=
  (["CRS_A_COORD1"; "CRS_A_COORD2"; "CRS_A_COORD3"; "CRS_A_CRSREF"; "POS1_VALID"; "POS1_QUALITY";
   "GEN_HEADER_TYPE"],
   ["Coord tuple 1 / CRS A Coord 1"; "Coord tuple 1 / CRS A Coord 2"; "Coord tuple 1 / CRS A Coord 3";
   "CRS A CRSREF Stanza ID 1"; "Position 1 valid"; "Position 1 quality"; "General header type"]).

(** CommonSEGD.hpp:1093-1101, CommonSEGD.cpp:643-651 *)
Definition n_GeneralHeaderPos3 : list string * list string :=
  (["CRS_B_COORD1"; "CRS_B_COORD2"; "CRS_B_COORD3"; "CRS_B_CRSREF"; "POS2_VALID"; "POS2_QUALITY";
   "GEN_HEADER_TYPE"],
   ["Coord tuple 2 / CRS B Coord 1"; "Coord tuple 2 / CRS B Coord 2"; "Coord tuple 2 / CRS B Coord 3";
   "CRS B CRSREF Stanza ID 1"; "Position 2 valid"; "Position 2 quality"; "General header type"]).

(** CommonSEGD.hpp:1135-1141, CommonSEGD.cpp:658-664 *)
Definition n_GeneralHeaderRel : list string * list string :=
  (["OFFSET_EAST"; "OFFSET_NORTH"; "OFFSET_VERT"; "DESCRIPTION"; "GEN_HEADER_TYPE"],
   ["Offset easting"; "Offset northing"; "Offset vertical"; "Description"; "General header type"]).

(** CommonSEGD.hpp:1175-1181, CommonSEGD.cpp:671-677 *)
Definition n_GeneralHeaderSen : list string * list string :=
  (["INSTRUMENT_TEST_TIME"; "SENSOR_SENSITIVITY"; "INSTR_TEST_RESULT"; "SERIAL_NUMBER"; "GEN_HEADER_TYPE"],
   ["Instrument Test Time"; "Sensor Sensitivity"; "Instr Test Result"; "Serial Number"; "General header type"]).

(** CommonSEGD.hpp:1218-1227, CommonSEGD.cpp:684-693 *)
Definition n_GeneralHeaderSCa : list string * list string :=
  (["FREQUENCY_1"; "AMPLITUDE_1"; "PHASE_1"; "FREQUENCY_2"; "AMPLITUDE_2"; "PHASE_2"; "ALIBRATION_APPLIED";
   "GEN_HEADER_TYPE"],
   ["Frequency 1"; "Amplitude 1"; "Phase 1"; "Frequency 2"; "Amplitude 2"; "Phase 2"; "Calibration applied";
   "General header type"]).

(** CommonSEGD.hpp:1263-1271, CommonSEGD.cpp:700-708 *)
Definition n_GeneralHeaderTim : list string * list string :=
  (["TIME_OF_DEPLOYMENT"; "TIME_OF_RETRIEVAL"; "TIMER_OFFSET_DEPLOYMENT"; "TIME_OFFSET_RETRIEVAL";
   "TIMEDRIFT_CORRECTED"; "CORRECTION_METHOD"; "GEN_HEADER_TYPE"],
   ["Time of deployment"; "Time of retrieval"; "Timer Offset Deployment"; "Time Offset Retrieval";
   "Timedrift corrected"; "Correction method"; "General header type"]).

(** CommonSEGD.hpp:1308-1317, CommonSEGD.cpp:715-724 *)
Definition n_GeneralHeaderElSR : list string * list string :=
  (["EQUIPMENT_DIMENTION_X"; "EQUIPMENT_DIMENTION_Y"; "EQUIPMENT_DIMENTION_Z"; "POSITIVE_TERMINAL";
   "EQUIPMENT_OFFSET_X"; "EQUIPMENT_OFFSET_Y"; "EQUIPMENT_OFFSET_Z"; "GEN_HEADER_TYPE"],
   ["Equipment Dimension X"; "Equipment Dimension Y"; "Equipment Dimension Z"; "Positive terminal";
   "Equipment Offset X"; "Equipment Offset Y"; "Equipment Offset Z"; "General header type"]).

(** CommonSEGD.hpp:1356-1368, CommonSEGD.cpp:731-741 *)
Definition n_GeneralHeaderOri : list string * list string :=
  (["ROTATION_X_AXIS"; "ROTATION_Y_AXIS"; "ROTATION_Z_AXIS"; "REFERENCE_ORIENT"; "TIME_STAMP"; "ORIENT_TYPE";
   "REF_ORIENT_VALID"; "ROTATION_APPLIED"; "ROT_NORTH"; "APPLIED"; "GEN_HEADER_TYPE"],
   ["Rotation x axis"; "Rotation Y axis"; "Rotation Z axis"; "Reference Orientation"; "Time Stamp";
   "Orientation Type"; "Ref Orient Valid"; "Rot North Applied"; "General header type"]).

(** CommonSEGD.hpp:1405-1414, CommonSEGD.cpp:748-757 *)
Definition n_GeneralHeaderMeas : list string * list string :=
  (["TIMESTAMP"; "MEASUREMENT_VALUE"; "MAXIMUM_VALUE"; "MINIMUM_VALUE"; "QUANTITY_CLASS"; "UNIT_OF_MEASURE";
   "MEASUREMENT_DESCRIPTION"; "GEN_HEADER_TYPE"],
   ["Timestamp"; "Measurement Value"; "Maximum Value"; "Minimum Value"; "Quantity Class"; "Unit Of Measure";
   "Measurement Description"; "General header type"]).

(** CommonSEGD.hpp:1483-1512, CommonSEGD.cpp:764-793 *)
Definition n_ChannelSetHeader : list string * list string :=
  (["SCAN_TYPE_NUMBER"; "CHANNEL_SET_NUMBER"; "CHANNEL_TYPE"; "CHANNEL_SET_START_TIME"; "CHANNEL_SET_END_TIME";
   "DESCALE_MULTIPLIER"; "NUMBER_OF_CHANNELS"; "SUBSCANS_PER_CH_SET"; "CHANNEL_GAIN"; "ALIAS_FILTER_FREQ";
   "ALIAS_FILTER_SLOPE"; "LOW_CUT_FILTER_FREQ"; "LOW_CUT_FILTER_SLOPE"; "FIRST_NOTCH_FILTER";
   "SECOND_NOTCH_FILTER"; "THIRD_NOTCH_FILTER"; "EXT_CH_SET_NUM"; "EXT_HDR_FLAG"; "TRC_HDR_EXT"; "VERT_STACK";
   "STREAMER_NO"; "ARRAY_FORMING"; "NUMBER_OF_SAMPLES"; "SAMPLE_INTERVAL"; "FILTER_PHASE"; "PHYSICAL_UNIT";
   "FILTER_DELAY"; "DESCRIPTION"],
   ["Scan type number"; "Channel set number"; "Channel type"; "Channel set start time"; "Channel set end time";
   "Descale multiplier"; "Number of channels"; "Subscans per channel set"; "Channel gain";
   "Alias filter frequency"; "Alias filter slope"; "Low cut filter frequency"; "Low cut filter slope";
   "First notch filter"; "Second notch filter"; "Third notch filter"; "Extended channel set number";
   "Extended header flag"; "Trace header extension"; "Verical stack"; "Streamer no"; "Array forming";
   "Number of samples"; "Sample interval"; "Filter phase"; "Physical unit"; "Filter delay"; "Description"]).

(** The header classes. *)
Definition name_tables : list (string * (list string * list string)) :=
  [("BinaryHeader", n_BinaryHeader); ("GeneralHeader", n_GeneralHeader); ("GeneralHeader2", n_GeneralHeader2);
   ("GeneralHeaderN", n_GeneralHeaderN); ("GeneralHeader3", n_GeneralHeader3); ("GeneralHeaderVes", n_GeneralHeaderVes);
   ("GeneralHeaderSur", n_GeneralHeaderSur); ("GeneralHeaderCli", n_GeneralHeaderCli); ("GeneralHeaderJob", n_GeneralHeaderJob);
   ("GeneralHeaderLin", n_GeneralHeaderLin); ("GeneralHeaderVib", n_GeneralHeaderVib); ("GeneralHeaderExp", n_GeneralHeaderExp);
   ("GeneralHeaderAir", n_GeneralHeaderAir); ("GeneralHeaderWat", n_GeneralHeaderWat); ("GeneralHeaderEle", n_GeneralHeaderEle);
   ("GeneralHeaderOth", n_GeneralHeaderOth); ("GeneralHeaderAdd", n_GeneralHeaderAdd); ("GeneralHeaderSaux", n_GeneralHeaderSaux);
   ("GeneralHeaderCoord", n_GeneralHeaderCoord); ("GeneralHeaderPos1", n_GeneralHeaderPos1); ("GeneralHeaderPos2", n_GeneralHeaderPos2);
   ("GeneralHeaderPos3", n_GeneralHeaderPos3); ("GeneralHeaderRel", n_GeneralHeaderRel); ("GeneralHeaderSen", n_GeneralHeaderSen);
   ("GeneralHeaderSCa", n_GeneralHeaderSCa); ("GeneralHeaderTim", n_GeneralHeaderTim); ("GeneralHeaderElSR", n_GeneralHeaderElSR);
   ("GeneralHeaderOri", n_GeneralHeaderOri); ("GeneralHeaderMeas", n_GeneralHeaderMeas); ("ChannelSetHeader", n_ChannelSetHeader)].

(** [array[static_cast<int>(n)]] for the enumerator with the number [i]; reading
    behind the end of the array is undefined. *)
Definition name_as_string (t : list string * list string) (i : nat) : outcome string :=
  match nth_error (snd t) i with Some s => Ok s | None => UB end.

(** CommonSEGY.cpp:331-453: key and description. *)
Definition trace_header_description : list (string * string) :=
  [("TRC_SEQ_LINE", "Trace sequence number within line.");
   ("TRC_SEQ_SGY", "Trace sequence number within SEGY file.");
   ("FFID", "Original field record number.");
   ("CHAN", "Trace number within the original field record.");
   ("ESP", "Energy source point number. Used when more than one record occures at the same effective surface location.");
   ("ENS_NO", "Ensemble number (i.e. CDP, CMP, CRP, etc.).");
   ("SEQ_NO", "Trace number within the ensemble.");
   ("TRACE_ID", "Trace identification code.");
   ("VERT_SUM", "Number of vertically summed traces yielding this trace.");
   ("HOR_SUM", "Number of horizontally stacked traces yielding this trace.");
   ("DATA_USE", "Data use: 1 = Production, 2 = Test");
   ("OFFSET", "Distance from center of the source point to the center of the receiver group.");
   ("R_ELEV", "Elevation of receiver group.");
   ("S_ELEV", "Surface elevation at source location.");
   ("S_DEPTH", "Source depth below surface.");
   ("R_DATUM", "Seismic Datum elevation at receiver group.");
   ("S_DATUM", "Seismic Datum elevation at source.");
   ("S_WATER", "Water column height at source location.");
   ("R_WATER", "Water column height at reseiver group location.");
   ("ELEV_SCALAR", "Scalar to be aplied to all elevations and depths.");
   ("COORD_SCALAR", "Scalar to be applied to all coordinates.");
   ("SOU_X", "Source coordinate X.");
   ("SOU_Y", "Source coordinate Y.");
   ("REC_X", "Group coordinate X.");
   ("REC_Y", "Group coordinate Y.");
   ("COORD_UNITS", "Coordinate units. (1,3,4): length; decimal degrees; DMS.");
   ("WEATH_VEL", "Weathering velocity.");
   ("SUBWEATH_VEL", "Subweathering velocity.");
   ("S_UPHOLE", "Uphole time at source in milliseconds.");
   ("R_UPHOLE", "Uphole time at group in milliseconds.");
   ("S_STAT", "Source static correction in milliseconds.");
   ("R_STAT", "Receiver static correction in milliseconds.");
   ("TOT_STAT", "Total static applied in milliseconds.");
   ("LAG_A", "Lag time A. Time in ms between end of trace header and time break.");
   ("LAG_B", "Lag time B. Time in ms between time break and initiation of source.");
   ("DELAY_TIME", "Delay recording time. Time in ms between initiation of source andstart of recording");
   ("MUTE_START", "Mute time. Start time in milliseconds.");
   ("MUTE_END", "Mute time. End time in milliseconds.");
   ("SAMP_NUM", "Number of samples in this trace.");
   ("SAMP_INT", "Sample interval for this trace.");
   ("GAIN_TYPE", "Gain type of field instruments: 1 = fixed, 2 = binary, 3 = floating point.");
   ("GAIN_CONST", "Instrument gain constant (dB).");
   ("INIT_GAIN", "Instrument early or initial gain (dB).");
   ("CORRELATED", "Correlated: 1 = no, 2 = yes.");
   ("SW_START", "Sweep frequency at start (Hz).");
   ("SW_END", "Sweep frequency at end (Hz).");
   ("SW_LENGTH", "Sweep length in milliseconds.");
   ("SW_TYPE", "Sweep type: 1 = linear, 2 = parabolic, 3 = exponential.");
   ("SW_TAPER_START", "Sweep trace taper length at start in milliseconds.");
   ("SW_TAPER_END", "Sweep trace taper length at end in milliseconds.");
   ("TAPER_TYPE", "Taper type: 1 = linear, 2 = cos^2, 3 = other.");
   ("ALIAS_FILT_FREQ", "Alias filter frequency (Hz), if used.");
   ("ALIAS_FILT_SLOPE", "Alias filter slope (dB/octave).");
   ("NOTCH_FILT_FREQ", "Notch filter frequency (Hz), if used.");
   ("NOTCH_FILT_SLOPE", "Notch filter slope (dB/octave).");
   ("LOW_CUT_FREQ", "Low-cut frequency (Hz), if used.");
   ("HIGH_CUT_FREQ", "High-cut frequency (Hz), if used.");
   ("LOW_CUT_SLOPE", "Low-cut slope (dB/octave).");
   ("HIGH_CUT_SLOPE", "High-cut slope (dB/octave).");
   ("YEAR", "Year data recorded.");
   ("DAY", "Day of year.");
   ("HOUR", "Year data recorded.");
   ("MINUTE", "Minute of hour.");
   ("SECOND", "Second of minute.");
   ("TIME_BASIS_CODE", "Time basis code. 1 = local, 2 = GMT, 4 = UTC, 5 = GPS");
   ("TRACE_WEIGHT", "Trace weighting factor. Defined as 2^-N.");
   ("GROUP_NUM_ROLL", "Geophone group number of roll switch position one.");
   ("GROUP_NUM_FIRST", "Geophone group number of trace number one within original field record.");
   ("GROUP_NUM_LAST", "Geophone group number of last trace within original field record.");
   ("GAP_SIZE", "Gap size (total number of groups dropped).");
   ("OVER_TRAVEL", "Over travel associated with taper at beginning or end of line.");
   ("CDP_X", "X coordinate of ensemble (CDP) position.");
   ("CDP_Y", "Y coordinate of ensemble (CDP) position.");
   ("INLINE", "In-line number (for 3D).");
   ("XLINE", "Cross-line number (for 3D).");
   ("SP_NUM", "Shotpoint number. Shotpoint number refers to the source location nearest to CDP location");
   ("SP_NUM_SCALAR", "Scalar to be applied to the SP_NUM.");
   ("TR_VAL_UNIT", "Trace value measurement unit. 1 = Pa, 2 = V, 3 = mV, 4 = A, 5 = m, 6 = m/s, 7 = m/s/s, 8 = N, 9 = W");
   ("TRANS_CONST", "Transduction Constant. Transforms trace samples to the Transduction Units");
   ("TRANS_UNITS", "Transduction Units. 1 = Pa, 2 = V, 3 = mV, 4 = A, 5 = m, 6 = m/s, 7 = m/s/s, 8 = N, 9 = W");
   ("DEVICE_ID", "Device/Trace Identifier. The unit number or id of the device associated with trace data.");
   ("TIME_SCALAR", "Scalar to be applied to upholes, statics, lags, delay and mutes.");
   ("SOURCE_TYPE", "Defines the type and the orientation of energy source.");
   ("SOU_V_DIR", "Source Energy Direction with respect to source orientation. Vertical.");
   ("SOU_X_DIR", "Source Energy Direction with respect to source orientation. Cross-line.");
   ("SOU_I_DIR", "Source Energy Direction with respect to source orientation. In-line.");
   ("SOURCE_MEASUREMENT", "Source Measurement. Describes the source effort used to generate the trace.");
   ("SOU_MEAS_UNIT", "The unit used for the Source Measurement. 1 = J, 2 = kW, 3 = Pa, 4 = Bar, 5 = N, 6 = kg.");
   ("R_DEPTH", "Receiver group depth below the surface locacation of receiver group.");
   ("NANO_SECOND", "Nanoseconds to add to Second of minute.");
   ("CABLE_NUM", "Cable number for multi-cable acquisition or Recording Device/Sensor ID number.");
   ("ADD_TRC_HDR_NUM", "Number of additional trace header extension blocks including this one.");
   ("LAST_TRC_FLAG", "Last trace flag. 1 = in ensemble, 2 = in line, 4 = in file, 8 = in survey.")].
