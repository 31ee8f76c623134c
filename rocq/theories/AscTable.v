(** The table ASC_CODES of src/infi/asi/sense/asc.py:6-669, transcribed by tools/mkasc.py:
    additional sense code, qualifier, text. *)
From Coq Require Import String ZArith List.
Import ListNotations.
Local Open Scope string_scope.
Local Open Scope Z_scope.

(** asc.py:7-668. *)
Definition asc_table : list (Z * Z * string) :=
  [(0, 0, "NO ADDITIONAL SENSE INFORMATION");
   (0, 1, "FILEMARK DETECTED");
   (0, 2, "END-OF-PARTITION/MEDIUM DETECTED");
   (0, 3, "SETMARK DETECTED");
   (0, 4, "BEGINNING-OF-PARTITION/MEDIUM DETECTED");
   (0, 5, "END-OF-DATA DETECTED");
   (0, 6, "I/O PROCESS TERMINATED");
   (0, 7, "PROGRAMMABLE EARLY WARNING DETECTED");
   (0, 17, "AUDIO PLAY OPERATION IN PROGRESS");
   (0, 18, "AUDIO PLAY OPERATION PAUSED");
   (0, 19, "AUDIO PLAY OPERATION SUCCESSFULLY COMPLETED");
   (0, 20, "AUDIO PLAY OPERATION STOPPED DUE TO ERROR");
   (0, 21, "NO CURRENT AUDIO STATUS TO RETURN");
   (0, 22, "OPERATION IN PROGRESS");
   (0, 23, "CLEANING REQUESTED");
   (0, 24, "ERASE OPERATION IN PROGRESS");
   (0, 25, "LOCATE OPERATION IN PROGRESS");
   (0, 26, "REWIND OPERATION IN PROGRESS");
   (0, 27, "SET CAPACITY OPERATION IN PROGRESS");
   (0, 28, "VERIFY OPERATION IN PROGRESS");
   (0, 29, "ATA PASS THROUGH INFORMATION AVAILABLE");
   (0, 30, "CONFLICTING SA CREATION REQUEST");
   (0, 31, "LOGICAL UNIT TRANSITIONING TO ANOTHER POWER CONDITION");
   (1, 0, "NO INDEX/SECTOR SIGNAL");
   (2, 0, "NO SEEK COMPLETE");
   (3, 0, "PERIPHERAL DEVICE WRITE FAULT");
   (3, 1, "NO WRITE CURRENT");
   (3, 2, "EXCESSIVE WRITE ERRORS");
   (4, 0, "LOGICAL UNIT NOT READY, CAUSE NOT REPORTABLE");
   (4, 1, "LOGICAL UNIT IS IN PROCESS OF BECOMING READY");
   (4, 2, "LOGICAL UNIT NOT READY, INITIALIZING COMMAND REQUIRED");
   (4, 3, "LOGICAL UNIT NOT READY, MANUAL INTERVENTION REQUIRED");
   (4, 4, "LOGICAL UNIT NOT READY, FORMAT IN PROGRESS");
   (4, 5, "LOGICAL UNIT NOT READY, REBUILD IN PROGRESS");
   (4, 6, "LOGICAL UNIT NOT READY, RECALCULATION IN PROGRESS");
   (4, 7, "LOGICAL UNIT NOT READY, OPERATION IN PROGRESS");
   (4, 8, "LOGICAL UNIT NOT READY, LONG WRITE IN PROGRESS");
   (4, 9, "LOGICAL UNIT NOT READY, SELF-TEST IN PROGRESS");
   (4, 10, "LOGICAL UNIT NOT ACCESSIBLE, ASYMMETRIC ACCESS STATE TRANSITION");
   (4, 11, "LOGICAL UNIT NOT ACCESSIBLE, TARGET PORT IN STANDBY STATE");
   (4, 12, "LOGICAL UNIT NOT ACCESSIBLE, TARGET PORT IN UNAVAILABLE STATE");
   (4, 13, "LOGICAL UNIT NOT READY, STRUCTURE CHECK REQUIRED");
   (4, 16, "LOGICAL UNIT NOT READY, AUXILIARY MEMORY NOT ACCESSIBLE");
   (4, 17, "LOGICAL UNIT NOT READY, NOTIFY (ENABLE SPINUP) REQUIRED");
   (4, 18, "LOGICAL UNIT NOT READY, OFFLINE");
   (4, 19, "LOGICAL UNIT NOT READY, SA CREATION IN PROGRESS");
   (4, 20, "LOGICAL UNIT NOT READY, SPACE ALLOCATION IN PROGRESS");
   (4, 21, "LOGICAL UNIT NOT READY, ROBOTICS DISABLED");
   (4, 22, "LOGICAL UNIT NOT READY, CONFIGURATION REQUIRED");
   (4, 23, "LOGICAL UNIT NOT READY, CALIBRATION REQUIRED");
   (4, 24, "LOGICAL UNIT NOT READY, A DOOR IS OPEN");
   (4, 25, "LOGICAL UNIT NOT READY, OPERATING IN SEQUENTIAL MODE");
   (4, 26, "LOGICAL UNIT NOT READY, START STOP UNIT COMMAND IN PROGRESS");
   (4, 27, "LOGICAL UNIT NOT READY, SANITIZE IN PROGRESS");
   (4, 28, "LOGICAL UNIT NOT READY, ADDITIONAL POWER USE NOT YET GRANTED");
   (5, 0, "LOGICAL UNIT DOES NOT RESPOND TO SELECTION");
   (6, 0, "NO REFERENCE POSITION FOUND");
   (7, 0, "MULTIPLE PERIPHERAL DEVICES SELECTED");
   (8, 0, "LOGICAL UNIT COMMUNICATION FAILURE");
   (8, 1, "LOGICAL UNIT COMMUNICATION TIME-OUT");
   (8, 2, "LOGICAL UNIT COMMUNICATION PARITY ERROR");
   (8, 3, "LOGICAL UNIT COMMUNICATION CRC ERROR (ULTRA-DMA/32)");
   (8, 4, "UNREACHABLE COPY TARGET");
   (9, 0, "TRACK FOLLOWING ERROR");
   (9, 1, "TRACKING SERVO FAILURE");
   (9, 2, "FOCUS SERVO FAILURE");
   (9, 3, "SPINDLE SERVO FAILURE");
   (9, 4, "HEAD SELECT FAULT");
   (10, 0, "ERROR LOG OVERFLOW");
   (11, 0, "WARNING");
   (11, 1, "WARNING - SPECIFIED TEMPERATURE EXCEEDED");
   (11, 2, "WARNING - ENCLOSURE DEGRADED");
   (11, 3, "WARNING - BACKGROUND SELF-TEST FAILED");
   (11, 4, "WARNING - BACKGROUND PRE-SCAN DETECTED MEDIUM ERROR");
   (11, 5, "WARNING - BACKGROUND MEDIUM SCAN DETECTED MEDIUM ERROR");
   (11, 6, "WARNING - NON-VOLATILE CACHE NOW VOLATILE");
   (11, 7, "WARNING - DEGRADED POWER TO NON-VOLATILE CACHE");
   (11, 8, "WARNING - POWER LOSS EXPECTED");
   (12, 0, "WRITE ERROR");
   (12, 1, "WRITE ERROR - RECOVERED WITH AUTO REALLOCATION");
   (12, 2, "WRITE ERROR - AUTO REALLOCATION FAILED");
   (12, 3, "WRITE ERROR - RECOMMEND REASSIGNMENT");
   (12, 4, "COMPRESSION CHECK MISCOMPARE ERROR");
   (12, 5, "DATA EXPANSION OCCURRED DURING COMPRESSION");
   (12, 6, "BLOCK NOT COMPRESSIBLE");
   (12, 7, "WRITE ERROR - RECOVERY NEEDED");
   (12, 8, "WRITE ERROR - RECOVERY FAILED");
   (12, 9, "WRITE ERROR - LOSS OF STREAMING");
   (12, 10, "WRITE ERROR - PADDING BLOCKS ADDED");
   (12, 11, "AUXILIARY MEMORY WRITE ERROR");
   (12, 12, "WRITE ERROR - UNEXPECTED UNSOLICITED DATA");
   (12, 13, "WRITE ERROR - NOT ENOUGH UNSOLICITED DATA");
   (12, 15, "DEFECTS IN ERROR WINDOW");
   (13, 0, "ERROR DETECTED BY THIRD PARTY TEMPORARY INITIATOR");
   (13, 1, "THIRD PARTY DEVICE FAILURE");
   (13, 2, "COPY TARGET DEVICE NOT REACHABLE");
   (13, 3, "INCORRECT COPY TARGET DEVICE TYPE");
   (13, 4, "COPY TARGET DEVICE DATA UNDERRUN");
   (13, 5, "COPY TARGET DEVICE DATA OVERRUN");
   (14, 0, "INVALID INFORMATION UNIT");
   (14, 1, "INFORMATION UNIT TOO SHORT");
   (14, 2, "INFORMATION UNIT TOO LONG");
   (14, 3, "INVALID FIELD IN COMMAND INFORMATION UNIT");
   (15, 0, "0Fh/00h");
   (16, 0, "ID CRC OR ECC ERROR");
   (16, 1, "LOGICAL BLOCK GUARD CHECK FAILED");
   (16, 2, "LOGICAL BLOCK APPLICATION TAG CHECK FAILED");
   (16, 3, "LOGICAL BLOCK REFERENCE TAG CHECK FAILED");
   (16, 4, "LOGICAL BLOCK PROTECTION ERROR ON RECOVER BUFFERED DATA");
   (16, 5, "LOGICAL BLOCK PROTECTION METHOD ERROR");
   (17, 0, "UNRECOVERED READ ERROR");
   (17, 1, "READ RETRIES EXHAUSTED");
   (17, 2, "ERROR TOO LONG TO CORRECT");
   (17, 3, "MULTIPLE READ ERRORS");
   (17, 4, "UNRECOVERED READ ERROR - AUTO REALLOCATE FAILED");
   (17, 5, "L-EC UNCORRECTABLE ERROR");
   (17, 6, "CIRC UNRECOVERED ERROR");
   (17, 7, "DATA RE-SYNCHRONIZATION ERROR");
   (17, 8, "INCOMPLETE BLOCK READ");
   (17, 9, "NO GAP FOUND");
   (17, 10, "MISCORRECTED ERROR");
   (17, 11, "UNRECOVERED READ ERROR - RECOMMEND REASSIGNMENT");
   (17, 12, "UNRECOVERED READ ERROR - RECOMMEND REWRITE THE DATA");
   (17, 13, "DE-COMPRESSION CRC ERROR");
   (17, 14, "CANNOT DECOMPRESS USING DECLARED ALGORITHM");
   (17, 15, "ERROR READING UPC/EAN NUMBER");
   (17, 16, "ERROR READING ISRC NUMBER");
   (17, 17, "READ ERROR - LOSS OF STREAMING");
   (17, 18, "AUXILIARY MEMORY READ ERROR");
   (17, 19, "READ ERROR - FAILED RETRANSMISSION REQUEST");
   (17, 20, "READ ERROR - LBA MARKED BAD BY APPLICATION CLIENT");
   (18, 0, "ADDRESS MARK NOT FOUND FOR ID FIELD");
   (19, 0, "ADDRESS MARK NOT FOUND FOR DATA FIELD");
   (20, 0, "RECORDED ENTITY NOT FOUND");
   (20, 1, "RECORD NOT FOUND");
   (20, 2, "FILEMARK OR SETMARK NOT FOUND");
   (20, 3, "END-OF-DATA NOT FOUND");
   (20, 4, "BLOCK SEQUENCE ERROR");
   (20, 5, "RECORD NOT FOUND - RECOMMEND REASSIGNMENT");
   (20, 6, "RECORD NOT FOUND - DATA AUTO-REALLOCATED");
   (20, 7, "LOCATE OPERATION FAILURE");
   (21, 0, "RANDOM POSITIONING ERROR");
   (21, 1, "MECHANICAL POSITIONING ERROR");
   (21, 2, "POSITIONING ERROR DETECTED BY READ OF MEDIUM");
   (22, 0, "DATA SYNCHRONIZATION MARK ERROR");
   (22, 1, "DATA SYNC ERROR - DATA REWRITTEN");
   (22, 2, "DATA SYNC ERROR - RECOMMEND REWRITE");
   (22, 3, "DATA SYNC ERROR - DATA AUTO-REALLOCATED");
   (22, 4, "DATA SYNC ERROR - RECOMMEND REASSIGNMENT");
   (23, 0, "RECOVERED DATA WITH NO ERROR CORRECTION APPLIED");
   (23, 1, "RECOVERED DATA WITH RETRIES");
   (23, 2, "RECOVERED DATA WITH POSITIVE HEAD OFFSET");
   (23, 3, "RECOVERED DATA WITH NEGATIVE HEAD OFFSET");
   (23, 4, "RECOVERED DATA WITH RETRIES AND/OR CIRC APPLIED");
   (23, 5, "RECOVERED DATA USING PREVIOUS SECTOR ID");
   (23, 6, "RECOVERED DATA WITHOUT ECC - DATA AUTO-REALLOCATED");
   (23, 7, "RECOVERED DATA WITHOUT ECC - RECOMMEND REASSIGNMENT");
   (23, 8, "RECOVERED DATA WITHOUT ECC - RECOMMEND REWRITE");
   (23, 9, "RECOVERED DATA WITHOUT ECC - DATA REWRITTEN");
   (24, 0, "RECOVERED DATA WITH ERROR CORRECTION APPLIED");
   (24, 1, "RECOVERED DATA WITH ERROR CORR. & RETRIES APPLIED");
   (24, 2, "RECOVERED DATA - DATA AUTO-REALLOCATED");
   (24, 3, "RECOVERED DATA WITH CIRC");
   (24, 4, "RECOVERED DATA WITH L-EC");
   (24, 5, "RECOVERED DATA - RECOMMEND REASSIGNMENT");
   (24, 6, "RECOVERED DATA - RECOMMEND REWRITE");
   (24, 7, "RECOVERED DATA WITH ECC - DATA REWRITTEN");
   (24, 8, "RECOVERED DATA WITH LINKING");
   (25, 0, "DEFECT LIST ERROR");
   (25, 1, "DEFECT LIST NOT AVAILABLE");
   (25, 2, "DEFECT LIST ERROR IN PRIMARY LIST");
   (25, 3, "DEFECT LIST ERROR IN GROWN LIST");
   (26, 0, "PARAMETER LIST LENGTH ERROR");
   (27, 0, "SYNCHRONOUS DATA TRANSFER ERROR");
   (28, 0, "DEFECT LIST NOT FOUND");
   (28, 1, "PRIMARY DEFECT LIST NOT FOUND");
   (28, 2, "GROWN DEFECT LIST NOT FOUND");
   (29, 0, "MISCOMPARE DURING VERIFY OPERATION");
   (29, 1, "MISCOMPARE VERIFY OF UNMAPPED LBA");
   (30, 0, "RECOVERED ID WITH ECC CORRECTION");
   (31, 0, "PARTIAL DEFECT LIST TRANSFER");
   (32, 0, "INVALID COMMAND OPERATION CODE");
   (32, 1, "ACCESS DENIED - INITIATOR PENDING-ENROLLED");
   (32, 2, "ACCESS DENIED - NO ACCESS RIGHTS");
   (32, 3, "ACCESS DENIED - INVALID MGMT ID KEY");
   (32, 4, "ILLEGAL COMMAND WHILE IN WRITE CAPABLE STATE");
   (32, 5, "Obsolete");
   (32, 6, "ILLEGAL COMMAND WHILE IN EXPLICIT ADDRESS MODE");
   (32, 7, "ILLEGAL COMMAND WHILE IN IMPLICIT ADDRESS MODE");
   (32, 8, "ACCESS DENIED - ENROLLMENT CONFLICT");
   (32, 9, "ACCESS DENIED - INVALID LU IDENTIFIER");
   (32, 10, "ACCESS DENIED - INVALID PROXY TOKEN");
   (32, 11, "ACCESS DENIED - ACL LUN CONFLICT");
   (32, 12, "ILLEGAL COMMAND WHEN NOT IN APPEND-ONLY MODE");
   (33, 0, "LOGICAL BLOCK ADDRESS OUT OF RANGE");
   (33, 1, "INVALID ELEMENT ADDRESS");
   (33, 2, "INVALID ADDRESS FOR WRITE");
   (33, 3, "INVALID WRITE CROSSING LAYER JUMP");
   (34, 0, "ILLEGAL FUNCTION (USE 20 00, 24 00, OR 26 00)");
   (35, 0, "INVALID TOKEN OPERATION, CAUSE NOT REPORTABLE");
   (36, 0, "INVALID FIELD IN CDB");
   (36, 1, "CDB DECRYPTION ERROR");
   (36, 2, "Obsolete");
   (36, 3, "Obsolete");
   (36, 4, "SECURITY AUDIT VALUE FROZEN");
   (36, 5, "SECURITY WORKING KEY FROZEN");
   (36, 6, "NONCE NOT UNIQUE");
   (36, 7, "NONCE TIMESTAMP OUT OF RANGE");
   (36, 8, "INVALID XCDB");
   (37, 0, "LOGICAL UNIT NOT SUPPORTED");
   (38, 0, "INVALID FIELD IN PARAMETER LIST");
   (38, 1, "PARAMETER NOT SUPPORTED");
   (38, 2, "PARAMETER VALUE INVALID");
   (38, 3, "THRESHOLD PARAMETERS NOT SUPPORTED");
   (38, 4, "INVALID RELEASE OF PERSISTENT RESERVATION");
   (38, 5, "DATA DECRYPTION ERROR");
   (38, 6, "TOO MANY TARGET DESCRIPTORS");
   (38, 7, "UNSUPPORTED TARGET DESCRIPTOR TYPE CODE");
   (38, 8, "TOO MANY SEGMENT DESCRIPTORS");
   (38, 9, "UNSUPPORTED SEGMENT DESCRIPTOR TYPE CODE");
   (38, 10, "UNEXPECTED INEXACT SEGMENT");
   (38, 11, "INLINE DATA LENGTH EXCEEDED");
   (38, 12, "INVALID OPERATION FOR COPY SOURCE OR DESTINATION");
   (38, 13, "COPY SEGMENT GRANULARITY VIOLATION");
   (38, 14, "INVALID PARAMETER WHILE PORT IS ENABLED");
   (38, 15, "INVALID DATA-OUT BUFFER INTEGRITY CHECK VALUE");
   (38, 16, "DATA DECRYPTION KEY FAIL LIMIT REACHED");
   (38, 17, "INCOMPLETE KEY-ASSOCIATED DATA SET");
   (38, 18, "VENDOR SPECIFIC KEY REFERENCE NOT FOUND");
   (39, 0, "WRITE PROTECTED");
   (39, 1, "HARDWARE WRITE PROTECTED");
   (39, 2, "LOGICAL UNIT SOFTWARE WRITE PROTECTED");
   (39, 3, "ASSOCIATED WRITE PROTECT");
   (39, 4, "PERSISTENT WRITE PROTECT");
   (39, 5, "PERMANENT WRITE PROTECT");
   (39, 6, "CONDITIONAL WRITE PROTECT");
   (39, 7, "SPACE ALLOCATION FAILED WRITE PROTECT");
   (40, 0, "NOT READY TO READY CHANGE, MEDIUM MAY HAVE CHANGED");
   (40, 1, "IMPORT OR EXPORT ELEMENT ACCESSED");
   (40, 2, "FORMAT-LAYER MAY HAVE CHANGED");
   (40, 3, "IMPORT/EXPORT ELEMENT ACCESSED, MEDIUM CHANGED");
   (41, 0, "POWER ON, RESET, OR BUS DEVICE RESET OCCURRED");
   (41, 1, "POWER ON OCCURRED");
   (41, 2, "SCSI BUS RESET OCCURRED");
   (41, 3, "BUS DEVICE RESET FUNCTION OCCURRED");
   (41, 4, "DEVICE INTERNAL RESET");
   (41, 5, "TRANSCEIVER MODE CHANGED TO SINGLE-ENDED");
   (41, 6, "TRANSCEIVER MODE CHANGED TO LVD");
   (41, 7, "I_T NEXUS LOSS OCCURRED");
   (42, 0, "PARAMETERS CHANGED");
   (42, 1, "MODE PARAMETERS CHANGED");
   (42, 2, "LOG PARAMETERS CHANGED");
   (42, 3, "RESERVATIONS PREEMPTED");
   (42, 4, "RESERVATIONS RELEASED");
   (42, 5, "REGISTRATIONS PREEMPTED");
   (42, 6, "ASYMMETRIC ACCESS STATE CHANGED");
   (42, 7, "IMPLICIT ASYMMETRIC ACCESS STATE TRANSITION FAILED");
   (42, 8, "PRIORITY CHANGED");
   (42, 9, "CAPACITY DATA HAS CHANGED");
   (42, 10, "ERROR HISTORY I_T NEXUS CLEARED");
   (42, 11, "ERROR HISTORY SNAPSHOT RELEASED");
   (42, 12, "ERROR RECOVERY ATTRIBUTES HAVE CHANGED");
   (42, 13, "DATA ENCRYPTION CAPABILITIES CHANGED");
   (42, 16, "TIMESTAMP CHANGED");
   (42, 17, "DATA ENCRYPTION PARAMETERS CHANGED BY ANOTHER I_T NEXUS");
   (42, 18, "DATA ENCRYPTION PARAMETERS CHANGED BY VENDOR SPECIFIC EVENT");
   (42, 19, "DATA ENCRYPTION KEY INSTANCE COUNTER HAS CHANGED");
   (42, 20, "SA CREATION CAPABILITIES DATA HAS CHANGED");
   (43, 0, "COPY CANNOT EXECUTE SINCE HOST CANNOT DISCONNECT");
   (44, 0, "COMMAND SEQUENCE ERROR");
   (44, 1, "TOO MANY WINDOWS SPECIFIED");
   (44, 2, "INVALID COMBINATION OF WINDOWS SPECIFIED");
   (44, 3, "CURRENT PROGRAM AREA IS NOT EMPTY");
   (44, 4, "CURRENT PROGRAM AREA IS EMPTY");
   (44, 5, "ILLEGAL POWER CONDITION REQUEST");
   (44, 6, "PERSISTENT PREVENT CONFLICT");
   (44, 7, "PREVIOUS BUSY STATUS");
   (44, 8, "PREVIOUS TASK SET FULL STATUS");
   (44, 9, "PREVIOUS RESERVATION CONFLICT STATUS");
   (44, 10, "PARTITION OR COLLECTION CONTAINS USER OBJECTS");
   (44, 11, "NOT RESERVED");
   (44, 12, "ORWRITE GENERATION DOES NOT MATCH");
   (45, 0, "OVERWRITE ERROR ON UPDATE IN PLACE");
   (46, 0, "INSUFFICIENT TIME FOR OPERATION");
   (47, 0, "COMMANDS CLEARED BY ANOTHER INITIATOR");
   (47, 1, "COMMANDS CLEARED BY POWER LOSS NOTIFICATION");
   (47, 2, "COMMANDS CLEARED BY DEVICE SERVER");
   (48, 0, "INCOMPATIBLE MEDIUM INSTALLED");
   (48, 1, "CANNOT READ MEDIUM - UNKNOWN FORMAT");
   (48, 2, "CANNOT READ MEDIUM - INCOMPATIBLE FORMAT");
   (48, 3, "CLEANING CARTRIDGE INSTALLED");
   (48, 4, "CANNOT WRITE MEDIUM - UNKNOWN FORMAT");
   (48, 5, "CANNOT WRITE MEDIUM - INCOMPATIBLE FORMAT");
   (48, 6, "CANNOT FORMAT MEDIUM - INCOMPATIBLE MEDIUM");
   (48, 7, "CLEANING FAILURE");
   (48, 8, "CANNOT WRITE - APPLICATION CODE MISMATCH");
   (48, 9, "CURRENT SESSION NOT FIXATED FOR APPEND");
   (48, 10, "CLEANING REQUEST REJECTED");
   (48, 12, "WORM MEDIUM - OVERWRITE ATTEMPTED");
   (48, 13, "WORM MEDIUM - INTEGRITY CHECK");
   (48, 16, "MEDIUM NOT FORMATTED");
   (48, 17, "INCOMPATIBLE VOLUME TYPE");
   (48, 18, "INCOMPATIBLE VOLUME QUALIFIER");
   (48, 19, "CLEANING VOLUME EXPIRED");
   (49, 0, "MEDIUM FORMAT CORRUPTED");
   (49, 1, "FORMAT COMMAND FAILED");
   (49, 2, "ZONED FORMATTING FAILED DUE TO SPARE LINKING");
   (49, 3, "SANITIZE COMMAND FAILED");
   (50, 0, "NO DEFECT SPARE LOCATION AVAILABLE");
   (50, 1, "DEFECT LIST UPDATE FAILURE");
   (51, 0, "TAPE LENGTH ERROR");
   (52, 0, "ENCLOSURE FAILURE");
   (53, 0, "ENCLOSURE SERVICES FAILURE");
   (53, 1, "UNSUPPORTED ENCLOSURE FUNCTION");
   (53, 2, "ENCLOSURE SERVICES UNAVAILABLE");
   (53, 3, "ENCLOSURE SERVICES TRANSFER FAILURE");
   (53, 4, "ENCLOSURE SERVICES TRANSFER REFUSED");
   (53, 5, "ENCLOSURE SERVICES CHECKSUM ERROR");
   (54, 0, "RIBBON, INK, OR TONER FAILURE");
   (55, 0, "ROUNDED PARAMETER");
   (56, 0, "EVENT STATUS NOTIFICATION");
   (56, 2, "ESN - POWER MANAGEMENT CLASS EVENT");
   (56, 4, "ESN - MEDIA CLASS EVENT");
   (56, 6, "ESN - DEVICE BUSY CLASS EVENT");
   (56, 7, "THIN PROVISIONING SOFT THRESHOLD REACHED");
   (57, 0, "SAVING PARAMETERS NOT SUPPORTED");
   (58, 0, "MEDIUM NOT PRESENT");
   (58, 1, "MEDIUM NOT PRESENT - TRAY CLOSED");
   (58, 2, "MEDIUM NOT PRESENT - TRAY OPEN");
   (58, 3, "MEDIUM NOT PRESENT - LOADABLE");
   (58, 4, "MEDIUM NOT PRESENT - MEDIUM AUXILIARY MEMORY ACCESSIBLE");
   (59, 0, "SEQUENTIAL POSITIONING ERROR");
   (59, 1, "TAPE POSITION ERROR AT BEGINNING-OF-MEDIUM");
   (59, 2, "TAPE POSITION ERROR AT END-OF-MEDIUM");
   (59, 3, "TAPE OR ELECTRONIC VERTICAL FORMS UNIT NOT READY");
   (59, 4, "SLEW FAILURE");
   (59, 5, "PAPER JAM");
   (59, 6, "FAILED TO SENSE TOP-OF-FORM");
   (59, 7, "FAILED TO SENSE BOTTOM-OF-FORM");
   (59, 8, "REPOSITION ERROR");
   (59, 9, "READ PAST END OF MEDIUM");
   (59, 10, "READ PAST BEGINNING OF MEDIUM");
   (59, 11, "POSITION PAST END OF MEDIUM");
   (59, 12, "POSITION PAST BEGINNING OF MEDIUM");
   (59, 13, "MEDIUM DESTINATION ELEMENT FULL");
   (59, 14, "MEDIUM SOURCE ELEMENT EMPTY");
   (59, 15, "END OF MEDIUM REACHED");
   (59, 17, "MEDIUM MAGAZINE NOT ACCESSIBLE");
   (59, 18, "MEDIUM MAGAZINE REMOVED");
   (59, 19, "MEDIUM MAGAZINE INSERTED");
   (59, 20, "MEDIUM MAGAZINE LOCKED");
   (59, 21, "MEDIUM MAGAZINE UNLOCKED");
   (59, 22, "MECHANICAL POSITIONING OR CHANGER ERROR");
   (59, 23, "READ PAST END OF USER OBJECT");
   (59, 24, "ELEMENT DISABLED");
   (59, 25, "ELEMENT ENABLED");
   (59, 26, "DATA TRANSFER DEVICE REMOVED");
   (59, 27, "DATA TRANSFER DEVICE INSERTED");
   (60, 0, "3Ch/00h");
   (61, 0, "INVALID BITS IN IDENTIFY MESSAGE");
   (62, 0, "LOGICAL UNIT HAS NOT SELF-CONFIGURED YET");
   (62, 1, "LOGICAL UNIT FAILURE");
   (62, 2, "TIMEOUT ON LOGICAL UNIT");
   (62, 3, "LOGICAL UNIT FAILED SELF-TEST");
   (62, 4, "LOGICAL UNIT UNABLE TO UPDATE SELF-TEST LOG");
   (63, 0, "TARGET OPERATING CONDITIONS HAVE CHANGED");
   (63, 1, "MICROCODE HAS BEEN CHANGED");
   (63, 2, "CHANGED OPERATING DEFINITION");
   (63, 3, "INQUIRY DATA HAS CHANGED");
   (63, 4, "COMPONENT DEVICE ATTACHED");
   (63, 5, "DEVICE IDENTIFIER CHANGED");
   (63, 6, "REDUNDANCY GROUP CREATED OR MODIFIED");
   (63, 7, "REDUNDANCY GROUP DELETED");
   (63, 8, "SPARE CREATED OR MODIFIED");
   (63, 9, "SPARE DELETED");
   (63, 10, "VOLUME SET CREATED OR MODIFIED");
   (63, 11, "VOLUME SET DELETED");
   (63, 12, "VOLUME SET DEASSIGNED");
   (63, 13, "VOLUME SET REASSIGNED");
   (63, 14, "REPORTED LUNS DATA HAS CHANGED");
   (63, 15, "ECHO BUFFER OVERWRITTEN");
   (63, 16, "MEDIUM LOADABLE");
   (63, 17, "MEDIUM AUXILIARY MEMORY ACCESSIBLE");
   (63, 18, "iSCSI IP ADDRESS ADDED");
   (63, 19, "iSCSI IP ADDRESS REMOVED");
   (63, 20, "iSCSI IP ADDRESS CHANGED");
   (64, 0, "RAM FAILURE (SHOULD USE 40 NN)");
   (65, 0, "DATA PATH FAILURE (SHOULD USE 40 NN)");
   (66, 0, "POWER-ON OR SELF-TEST FAILURE (SHOULD USE 40 NN)");
   (67, 0, "MESSAGE ERROR");
   (68, 0, "INTERNAL TARGET FAILURE");
   (68, 113, "ATA DEVICE FAILED SET FEATURES");
   (69, 0, "SELECT OR RESELECT FAILURE");
   (70, 0, "UNSUCCESSFUL SOFT RESET");
   (71, 0, "SCSI PARITY ERROR");
   (71, 1, "DATA PHASE CRC ERROR DETECTED");
   (71, 2, "SCSI PARITY ERROR DETECTED DURING ST DATA PHASE");
   (71, 3, "INFORMATION UNIT iuCRC ERROR DETECTED");
   (71, 4, "ASYNCHRONOUS INFORMATION PROTECTION ERROR DETECTED");
   (71, 5, "PROTOCOL SERVICE CRC ERROR");
   (71, 6, "PHY TEST FUNCTION IN PROGRESS");
   (71, 127, "SOME COMMANDS CLEARED BY ISCSI PROTOCOL EVENT");
   (72, 0, "INITIATOR DETECTED ERROR MESSAGE RECEIVED");
   (73, 0, "INVALID MESSAGE ERROR");
   (74, 0, "COMMAND PHASE ERROR");
   (75, 0, "DATA PHASE ERROR");
   (75, 1, "INVALID TARGET PORT TRANSFER TAG RECEIVED");
   (75, 2, "TOO MUCH WRITE DATA");
   (75, 3, "ACK/NAK TIMEOUT");
   (75, 4, "NAK RECEIVED");
   (75, 5, "DATA OFFSET ERROR");
   (75, 6, "INITIATOR RESPONSE TIMEOUT");
   (75, 7, "CONNECTION LOST");
   (76, 0, "LOGICAL UNIT FAILED SELF-CONFIGURATION");
   (78, 0, "OVERLAPPED COMMANDS ATTEMPTED");
   (79, 0, "4Fh/00h");
   (80, 0, "WRITE APPEND ERROR");
   (80, 1, "WRITE APPEND POSITION ERROR");
   (80, 2, "POSITION ERROR RELATED TO TIMING");
   (81, 0, "ERASE FAILURE");
   (81, 1, "ERASE FAILURE - INCOMPLETE ERASE OPERATION DETECTED");
   (82, 0, "CARTRIDGE FAULT");
   (83, 0, "MEDIA LOAD OR EJECT FAILED");
   (83, 1, "UNLOAD TAPE FAILURE");
   (83, 2, "MEDIUM REMOVAL PREVENTED");
   (83, 3, "MEDIUM REMOVAL PREVENTED BY DATA TRANSFER ELEMENT");
   (83, 4, "MEDIUM THREAD OR UNTHREAD FAILURE");
   (83, 5, "VOLUME IDENTIFIER INVALID");
   (83, 6, "VOLUME IDENTIFIER MISSING");
   (83, 7, "DUPLICATE VOLUME IDENTIFIER");
   (83, 8, "ELEMENT STATUS UNKNOWN");
   (84, 0, "SCSI TO HOST SYSTEM INTERFACE FAILURE");
   (85, 0, "SYSTEM RESOURCE FAILURE");
   (85, 1, "SYSTEM BUFFER FULL");
   (85, 2, "INSUFFICIENT RESERVATION RESOURCES");
   (85, 3, "INSUFFICIENT RESOURCES");
   (85, 4, "INSUFFICIENT REGISTRATION RESOURCES");
   (85, 5, "INSUFFICIENT ACCESS CONTROL RESOURCES");
   (85, 6, "AUXILIARY MEMORY OUT OF SPACE");
   (85, 7, "QUOTA ERROR");
   (85, 8, "MAXIMUM NUMBER OF SUPPLEMENTAL DECRYPTION KEYS EXCEEDED");
   (85, 9, "MEDIUM AUXILIARY MEMORY NOT ACCESSIBLE");
   (85, 10, "DATA CURRENTLY UNAVAILABLE");
   (85, 11, "INSUFFICIENT POWER FOR OPERATION");
   (86, 0, "56h/00h");
   (87, 0, "UNABLE TO RECOVER TABLE-OF-CONTENTS");
   (88, 0, "GENERATION DOES NOT EXIST");
   (89, 0, "UPDATED BLOCK READ");
   (90, 0, "OPERATOR REQUEST OR STATE CHANGE INPUT");
   (90, 1, "OPERATOR MEDIUM REMOVAL REQUEST");
   (90, 2, "OPERATOR SELECTED WRITE PROTECT");
   (90, 3, "OPERATOR SELECTED WRITE PERMIT");
   (91, 0, "LOG EXCEPTION");
   (91, 1, "THRESHOLD CONDITION MET");
   (91, 2, "LOG COUNTER AT MAXIMUM");
   (91, 3, "LOG LIST CODES EXHAUSTED");
   (92, 0, "RPL STATUS CHANGE");
   (92, 1, "SPINDLES SYNCHRONIZED");
   (92, 2, "SPINDLES NOT SYNCHRONIZED");
   (93, 0, "FAILURE PREDICTION THRESHOLD EXCEEDED");
   (93, 1, "MEDIA FAILURE PREDICTION THRESHOLD EXCEEDED");
   (93, 2, "LOGICAL UNIT FAILURE PREDICTION THRESHOLD EXCEEDED");
   (93, 3, "SPARE AREA EXHAUSTION PREDICTION THRESHOLD EXCEEDED");
   (93, 16, "HARDWARE IMPENDING FAILURE GENERAL HARD DRIVE FAILURE");
   (93, 17, "HARDWARE IMPENDING FAILURE DRIVE ERROR RATE TOO HIGH");
   (93, 18, "HARDWARE IMPENDING FAILURE DATA ERROR RATE TOO HIGH");
   (93, 19, "HARDWARE IMPENDING FAILURE SEEK ERROR RATE TOO HIGH");
   (93, 20, "HARDWARE IMPENDING FAILURE TOO MANY BLOCK REASSIGNS");
   (93, 21, "HARDWARE IMPENDING FAILURE ACCESS TIMES TOO HIGH");
   (93, 22, "HARDWARE IMPENDING FAILURE START UNIT TIMES TOO HIGH");
   (93, 23, "HARDWARE IMPENDING FAILURE CHANNEL PARAMETRICS");
   (93, 24, "HARDWARE IMPENDING FAILURE CONTROLLER DETECTED");
   (93, 25, "HARDWARE IMPENDING FAILURE THROUGHPUT PERFORMANCE");
   (93, 26, "HARDWARE IMPENDING FAILURE SEEK TIME PERFORMANCE");
   (93, 27, "HARDWARE IMPENDING FAILURE SPIN-UP RETRY COUNT");
   (93, 28, "HARDWARE IMPENDING FAILURE DRIVE CALIBRATION RETRY COUNT");
   (93, 32, "CONTROLLER IMPENDING FAILURE GENERAL HARD DRIVE FAILURE");
   (93, 33, "CONTROLLER IMPENDING FAILURE DRIVE ERROR RATE TOO HIGH");
   (93, 34, "CONTROLLER IMPENDING FAILURE DATA ERROR RATE TOO HIGH");
   (93, 35, "CONTROLLER IMPENDING FAILURE SEEK ERROR RATE TOO HIGH");
   (93, 36, "CONTROLLER IMPENDING FAILURE TOO MANY BLOCK REASSIGNS");
   (93, 37, "CONTROLLER IMPENDING FAILURE ACCESS TIMES TOO HIGH");
   (93, 38, "CONTROLLER IMPENDING FAILURE START UNIT TIMES TOO HIGH");
   (93, 39, "CONTROLLER IMPENDING FAILURE CHANNEL PARAMETRICS");
   (93, 40, "CONTROLLER IMPENDING FAILURE CONTROLLER DETECTED");
   (93, 41, "CONTROLLER IMPENDING FAILURE THROUGHPUT PERFORMANCE");
   (93, 42, "CONTROLLER IMPENDING FAILURE SEEK TIME PERFORMANCE");
   (93, 43, "CONTROLLER IMPENDING FAILURE SPIN-UP RETRY COUNT");
   (93, 44, "CONTROLLER IMPENDING FAILURE DRIVE CALIBRATION RETRY COUNT");
   (93, 48, "DATA CHANNEL IMPENDING FAILURE GENERAL HARD DRIVE FAILURE");
   (93, 49, "DATA CHANNEL IMPENDING FAILURE DRIVE ERROR RATE TOO HIGH");
   (93, 50, "DATA CHANNEL IMPENDING FAILURE DATA ERROR RATE TOO HIGH");
   (93, 51, "DATA CHANNEL IMPENDING FAILURE SEEK ERROR RATE TOO HIGH");
   (93, 52, "DATA CHANNEL IMPENDING FAILURE TOO MANY BLOCK REASSIGNS");
   (93, 53, "DATA CHANNEL IMPENDING FAILURE ACCESS TIMES TOO HIGH");
   (93, 54, "DATA CHANNEL IMPENDING FAILURE START UNIT TIMES TOO HIGH");
   (93, 55, "DATA CHANNEL IMPENDING FAILURE CHANNEL PARAMETRICS");
   (93, 56, "DATA CHANNEL IMPENDING FAILURE CONTROLLER DETECTED");
   (93, 57, "DATA CHANNEL IMPENDING FAILURE THROUGHPUT PERFORMANCE");
   (93, 58, "DATA CHANNEL IMPENDING FAILURE SEEK TIME PERFORMANCE");
   (93, 59, "DATA CHANNEL IMPENDING FAILURE SPIN-UP RETRY COUNT");
   (93, 60, "DATA CHANNEL IMPENDING FAILURE DRIVE CALIBRATION RETRY COUNT");
   (93, 64, "SERVO IMPENDING FAILURE GENERAL HARD DRIVE FAILURE");
   (93, 65, "SERVO IMPENDING FAILURE DRIVE ERROR RATE TOO HIGH");
   (93, 66, "SERVO IMPENDING FAILURE DATA ERROR RATE TOO HIGH");
   (93, 67, "SERVO IMPENDING FAILURE SEEK ERROR RATE TOO HIGH");
   (93, 68, "SERVO IMPENDING FAILURE TOO MANY BLOCK REASSIGNS");
   (93, 69, "SERVO IMPENDING FAILURE ACCESS TIMES TOO HIGH");
   (93, 70, "SERVO IMPENDING FAILURE START UNIT TIMES TOO HIGH");
   (93, 71, "SERVO IMPENDING FAILURE CHANNEL PARAMETRICS");
   (93, 72, "SERVO IMPENDING FAILURE CONTROLLER DETECTED");
   (93, 73, "SERVO IMPENDING FAILURE THROUGHPUT PERFORMANCE");
   (93, 74, "SERVO IMPENDING FAILURE SEEK TIME PERFORMANCE");
   (93, 75, "SERVO IMPENDING FAILURE SPIN-UP RETRY COUNT");
   (93, 76, "SERVO IMPENDING FAILURE DRIVE CALIBRATION RETRY COUNT");
   (93, 80, "SPINDLE IMPENDING FAILURE GENERAL HARD DRIVE FAILURE");
   (93, 81, "SPINDLE IMPENDING FAILURE DRIVE ERROR RATE TOO HIGH");
   (93, 82, "SPINDLE IMPENDING FAILURE DATA ERROR RATE TOO HIGH");
   (93, 83, "SPINDLE IMPENDING FAILURE SEEK ERROR RATE TOO HIGH");
   (93, 84, "SPINDLE IMPENDING FAILURE TOO MANY BLOCK REASSIGNS");
   (93, 85, "SPINDLE IMPENDING FAILURE ACCESS TIMES TOO HIGH");
   (93, 86, "SPINDLE IMPENDING FAILURE START UNIT TIMES TOO HIGH");
   (93, 87, "SPINDLE IMPENDING FAILURE CHANNEL PARAMETRICS");
   (93, 88, "SPINDLE IMPENDING FAILURE CONTROLLER DETECTED");
   (93, 89, "SPINDLE IMPENDING FAILURE THROUGHPUT PERFORMANCE");
   (93, 90, "SPINDLE IMPENDING FAILURE SEEK TIME PERFORMANCE");
   (93, 91, "SPINDLE IMPENDING FAILURE SPIN-UP RETRY COUNT");
   (93, 92, "SPINDLE IMPENDING FAILURE DRIVE CALIBRATION RETRY COUNT");
   (93, 96, "FIRMWARE IMPENDING FAILURE GENERAL HARD DRIVE FAILURE");
   (93, 97, "FIRMWARE IMPENDING FAILURE DRIVE ERROR RATE TOO HIGH");
   (93, 98, "FIRMWARE IMPENDING FAILURE DATA ERROR RATE TOO HIGH");
   (93, 99, "FIRMWARE IMPENDING FAILURE SEEK ERROR RATE TOO HIGH");
   (93, 100, "FIRMWARE IMPENDING FAILURE TOO MANY BLOCK REASSIGNS");
   (93, 101, "FIRMWARE IMPENDING FAILURE ACCESS TIMES TOO HIGH");
   (93, 102, "FIRMWARE IMPENDING FAILURE START UNIT TIMES TOO HIGH");
   (93, 103, "FIRMWARE IMPENDING FAILURE CHANNEL PARAMETRICS");
   (93, 104, "FIRMWARE IMPENDING FAILURE CONTROLLER DETECTED");
   (93, 105, "FIRMWARE IMPENDING FAILURE THROUGHPUT PERFORMANCE");
   (93, 106, "FIRMWARE IMPENDING FAILURE SEEK TIME PERFORMANCE");
   (93, 107, "FIRMWARE IMPENDING FAILURE SPIN-UP RETRY COUNT");
   (93, 108, "FIRMWARE IMPENDING FAILURE DRIVE CALIBRATION RETRY COUNT");
   (93, 255, "FAILURE PREDICTION THRESHOLD EXCEEDED (FALSE)");
   (94, 0, "LOW POWER CONDITION ON");
   (94, 1, "IDLE CONDITION ACTIVATED BY TIMER");
   (94, 2, "STANDBY CONDITION ACTIVATED BY TIMER");
   (94, 3, "IDLE CONDITION ACTIVATED BY COMMAND");
   (94, 4, "STANDBY CONDITION ACTIVATED BY COMMAND");
   (94, 5, "IDLE_B CONDITION ACTIVATED BY TIMER");
   (94, 6, "IDLE_B CONDITION ACTIVATED BY COMMAND");
   (94, 7, "IDLE_C CONDITION ACTIVATED BY TIMER");
   (94, 8, "IDLE_C CONDITION ACTIVATED BY COMMAND");
   (94, 9, "STANDBY_Y CONDITION ACTIVATED BY TIMER");
   (94, 10, "STANDBY_Y CONDITION ACTIVATED BY COMMAND");
   (94, 65, "POWER STATE CHANGE TO ACTIVE");
   (94, 66, "POWER STATE CHANGE TO IDLE");
   (94, 67, "POWER STATE CHANGE TO STANDBY");
   (94, 69, "POWER STATE CHANGE TO SLEEP");
   (94, 71, "POWER STATE CHANGE TO DEVICE CONTROL");
   (95, 0, "5Fh/00h");
   (96, 0, "LAMP FAILURE");
   (97, 0, "VIDEO ACQUISITION ERROR");
   (97, 1, "UNABLE TO ACQUIRE VIDEO");
   (97, 2, "OUT OF FOCUS");
   (98, 0, "SCAN HEAD POSITIONING ERROR");
   (99, 0, "END OF USER AREA ENCOUNTERED ON THIS TRACK");
   (99, 1, "PACKET DOES NOT FIT IN AVAILABLE SPACE");
   (100, 0, "ILLEGAL MODE FOR THIS TRACK");
   (100, 1, "INVALID PACKET SIZE");
   (101, 0, "VOLTAGE FAULT");
   (102, 0, "AUTOMATIC DOCUMENT FEEDER COVER UP");
   (102, 1, "AUTOMATIC DOCUMENT FEEDER LIFT UP");
   (102, 2, "DOCUMENT JAM IN AUTOMATIC DOCUMENT FEEDER");
   (102, 3, "DOCUMENT MISS FEED AUTOMATIC IN DOCUMENT FEEDER");
   (103, 0, "CONFIGURATION FAILURE");
   (103, 1, "CONFIGURATION OF INCAPABLE LOGICAL UNITS FAILED");
   (103, 2, "ADD LOGICAL UNIT FAILED");
   (103, 3, "MODIFICATION OF LOGICAL UNIT FAILED");
   (103, 4, "EXCHANGE OF LOGICAL UNIT FAILED");
   (103, 5, "REMOVE OF LOGICAL UNIT FAILED");
   (103, 6, "ATTACHMENT OF LOGICAL UNIT FAILED");
   (103, 7, "CREATION OF LOGICAL UNIT FAILED");
   (103, 8, "ASSIGN FAILURE OCCURRED");
   (103, 9, "MULTIPLY ASSIGNED LOGICAL UNIT");
   (103, 10, "SET TARGET PORT GROUPS COMMAND FAILED");
   (103, 11, "ATA DEVICE FEATURE NOT ENABLED");
   (104, 0, "LOGICAL UNIT NOT CONFIGURED");
   (105, 0, "DATA LOSS ON LOGICAL UNIT");
   (105, 1, "MULTIPLE LOGICAL UNIT FAILURES");
   (105, 2, "PARITY/DATA MISMATCH");
   (106, 0, "INFORMATIONAL, REFER TO LOG");
   (107, 0, "STATE CHANGE HAS OCCURRED");
   (107, 1, "REDUNDANCY LEVEL GOT BETTER");
   (107, 2, "REDUNDANCY LEVEL GOT WORSE");
   (108, 0, "REBUILD FAILURE OCCURRED");
   (109, 0, "RECALCULATE FAILURE OCCURRED");
   (110, 0, "COMMAND TO LOGICAL UNIT FAILED");
   (111, 0, "COPY PROTECTION KEY EXCHANGE FAILURE - AUTHENTICATION FAILURE");
   (111, 1, "COPY PROTECTION KEY EXCHANGE FAILURE - KEY NOT PRESENT");
   (111, 2, "COPY PROTECTION KEY EXCHANGE FAILURE - KEY NOT ESTABLISHED");
   (111, 3, "READ OF SCRAMBLED SECTOR WITHOUT AUTHENTICATION");
   (111, 4, "MEDIA REGION CODE IS MISMATCHED TO LOGICAL UNIT REGION");
   (111, 5, "DRIVE REGION MUST BE PERMANENT/REGION RESET COUNT ERROR");
   (111, 6, "INSUFFICIENT BLOCK COUNT FOR BINDING NONCE RECORDING");
   (111, 7, "CONFLICT IN BINDING NONCE RECORDING");
   (113, 0, "DECOMPRESSION EXCEPTION LONG ALGORITHM ID");
   (114, 0, "SESSION FIXATION ERROR");
   (114, 1, "SESSION FIXATION ERROR WRITING LEAD-IN");
   (114, 2, "SESSION FIXATION ERROR WRITING LEAD-OUT");
   (114, 3, "SESSION FIXATION ERROR - INCOMPLETE TRACK IN SESSION");
   (114, 4, "EMPTY OR PARTIALLY WRITTEN RESERVED TRACK");
   (114, 5, "NO MORE TRACK RESERVATIONS ALLOWED");
   (114, 6, "RMZ EXTENSION IS NOT ALLOWED");
   (114, 7, "NO MORE TEST ZONE EXTENSIONS ARE ALLOWED");
   (115, 0, "CD CONTROL ERROR");
   (115, 1, "POWER CALIBRATION AREA ALMOST FULL");
   (115, 2, "POWER CALIBRATION AREA IS FULL");
   (115, 3, "POWER CALIBRATION AREA ERROR");
   (115, 4, "PROGRAM MEMORY AREA UPDATE FAILURE");
   (115, 5, "PROGRAM MEMORY AREA IS FULL");
   (115, 6, "RMA/PMA IS ALMOST FULL");
   (115, 16, "CURRENT POWER CALIBRATION AREA ALMOST FULL");
   (115, 17, "CURRENT POWER CALIBRATION AREA IS FULL");
   (115, 23, "RDZ IS FULL");
   (116, 0, "SECURITY ERROR");
   (116, 1, "UNABLE TO DECRYPT DATA");
   (116, 2, "UNENCRYPTED DATA ENCOUNTERED WHILE DECRYPTING");
   (116, 3, "INCORRECT DATA ENCRYPTION KEY");
   (116, 4, "CRYPTOGRAPHIC INTEGRITY VALIDATION FAILED");
   (116, 5, "ERROR DECRYPTING DATA");
   (116, 6, "UNKNOWN SIGNATURE VERIFICATION KEY");
   (116, 7, "ENCRYPTION PARAMETERS NOT USEABLE");
   (116, 8, "DIGITAL SIGNATURE VALIDATION FAILURE");
   (116, 9, "ENCRYPTION MODE MISMATCH ON READ");
   (116, 10, "ENCRYPTED BLOCK NOT RAW READ ENABLED");
   (116, 11, "INCORRECT ENCRYPTION PARAMETERS");
   (116, 12, "UNABLE TO DECRYPT PARAMETER LIST");
   (116, 13, "ENCRYPTION ALGORITHM DISABLED");
   (116, 16, "SA CREATION PARAMETER VALUE INVALID");
   (116, 17, "SA CREATION PARAMETER VALUE REJECTED");
   (116, 18, "INVALID SA USAGE");
   (116, 33, "DATA ENCRYPTION CONFIGURATION PREVENTED");
   (116, 48, "SA CREATION PARAMETER NOT SUPPORTED");
   (116, 64, "AUTHENTICATION FAILED");
   (116, 97, "EXTERNAL DATA ENCRYPTION KEY MANAGER ACCESS ERROR");
   (116, 98, "EXTERNAL DATA ENCRYPTION KEY MANAGER ERROR");
   (116, 99, "EXTERNAL DATA ENCRYPTION KEY NOT FOUND");
   (116, 100, "EXTERNAL DATA ENCRYPTION REQUEST NOT AUTHORIZED");
   (116, 110, "EXTERNAL DATA ENCRYPTION CONTROL TIMEOUT");
   (116, 111, "EXTERNAL DATA ENCRYPTION CONTROL ERROR");
   (116, 113, "LOGICAL UNIT ACCESS NOT AUTHORIZED");
   (116, 121, "SECURITY CONFLICT IN TRANSLATED DEVICE");
   (117, 0, "VENDOR SPECIFIC");
   (118, 0, "VENDOR SPECIFIC");
   (119, 0, "VENDOR SPECIFIC");
   (120, 0, "VENDOR SPECIFIC");
   (121, 0, "VENDOR SPECIFIC");
   (122, 0, "VENDOR SPECIFIC");
   (123, 0, "VENDOR SPECIFIC");
   (124, 0, "VENDOR SPECIFIC");
   (125, 0, "VENDOR SPECIFIC");
   (126, 0, "VENDOR SPECIFIC");
   (127, 0, "VENDOR SPECIFIC")].
