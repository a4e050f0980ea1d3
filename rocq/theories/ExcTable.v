(** ExcTable.v: the class statements of /repo/postgresql/exceptions.py:38-678, in order; generated by tools/mkexc.py.
    A class is identified by the line of its statement; 34 is Message (imported on that line; message.py:10-33).
    Bases that are builtins of Python are left out: they have no code. *)
From Verif Require Import PyStr ExcModel.

Definition statements : list class := [
  mk 34 (str "Message") [] (Some (str "00000")) None;
  mk 38 (str "Exception") [] (None) (None);
  mk 44 (str "LoadError") [38] (None) (None);
  mk 49 (str "Disconnection") [38] (None) (None);
  mk 54 (str "Warning") [34] (Some (str "01000")) (None);
  mk 58 (str "DriverWarning") [54] (Some (str "01-00")) (None);
  mk 61 (str "IgnoredClientParameterWarning") [58] (Some (str "01-CP")) (None);
  mk 64 (str "TypeConversionWarning") [58] (Some (str "01-TP")) (None);
  mk 68 (str "DeprecationWarning") [54] (Some (str "01P01")) (None);
  mk 70 (str "DynamicResultSetsReturnedWarning") [54] (Some (str "0100C")) (None);
  mk 72 (str "ImplicitZeroBitPaddingWarning") [54] (Some (str "01008")) (None);
  mk 74 (str "NullValueEliminatedInSetFunctionWarning") [54] (Some (str "01003")) (None);
  mk 76 (str "PrivilegeNotGrantedWarning") [54] (Some (str "01007")) (None);
  mk 78 (str "PrivilegeNotRevokedWarning") [54] (Some (str "01006")) (None);
  mk 80 (str "StringDataRightTruncationWarning") [54] (Some (str "01004")) (None);
  mk 83 (str "NoDataWarning") [54] (Some (str "02000")) (None);
  mk 85 (str "NoMoreSetsReturned") [83] (Some (str "02001")) (None);
  mk 88 (str "Error") [34; 38] (Some (str "")) (None);
  mk 106 (str "DriverError") [88] (Some (str "--000")) (None);
  mk 112 (str "AuthenticationMethodError") [106; 49] (Some (str "--AUT")) (None);
  mk 118 (str "InsecurityError") [106; 49] (Some (str "--SEC")) (None);
  mk 123 (str "ConnectTimeoutError") [106; 49] (Some (str "--TOE")) (None);
  mk 129 (str "TypeIOError") [106] (Some (str "--TIO")) (None);
  mk 134 (str "ParameterError") [129] (Some (str "--PIO")) (None);
  mk 136 (str "ColumnError") [129] (Some (str "--CIO")) (None);
  mk 138 (str "CompositeError") [129] (Some (str "--cIO")) (None);
  mk 141 (str "OperationError") [106] (Some (str "--OPE")) (None);
  mk 147 (str "TransactionError") [88] (None) (None);
  mk 150 (str "SQLNotYetCompleteError") [88] (Some (str "03000")) (None);
  mk 153 (str "ConnectionError") [88; 49] (Some (str "08000")) (None);
  mk 155 (str "ConnectionDoesNotExistError") [153] (Some (str "08003")) (None);
  mk 160 (str "ConnectionFailureError") [153] (Some (str "08006")) (None);
  mk 166 (str "ClientCannotConnectError") [153] (Some (str "08001")) (None);
  mk 172 (str "ConnectionRejectionError") [153] (Some (str "08004")) (None);
  mk 174 (str "TransactionResolutionUnknownError") [153] (Some (str "08007")) (None);
  mk 176 (str "ProtocolError") [153] (Some (str "08P01")) (None);
  mk 179 (str "TriggeredActionError") [88] (Some (str "09000")) (None);
  mk 182 (str "FeatureError") [88] (Some (str "0A000")) (None);
  mk 188 (str "TransactionInitiationError") [147] (Some (str "0B000")) (None);
  mk 191 (str "LocatorError") [88] (Some (str "0F000")) (None);
  mk 193 (str "LocatorSpecificationError") [191] (Some (str "0F001")) (None);
  mk 196 (str "GrantorError") [88] (Some (str "0L000")) (None);
  mk 198 (str "GrantorOperationError") [196] (Some (str "0LP01")) (None);
  mk 201 (str "RoleSpecificationError") [88] (Some (str "0P000")) (None);
  mk 204 (str "CaseNotFoundError") [88] (Some (str "20000")) (None);
  mk 207 (str "CardinalityError") [88] (Some (str "21000")) (None);
  mk 213 (str "TriggeredDataChangeViolation") [88] (Some (str "27000")) (None);
  mk 216 (str "AuthenticationSpecificationError") [88; 49] (Some (str "28000")) (None);
  mk 219 (str "DPDSEError") [88] (Some (str "2B000")) (None);
  mk 224 (str "DPDSEObjectError") [219] (Some (str "2BP01")) (None);
  mk 227 (str "SREError") [88] (Some (str "2F000")) (None);
  mk 232 (str "FunctionExecutedNoReturnStatementError") [227] (Some (str "2F005")) (None);
  mk 234 (str "DataModificationProhibitedError") [227] (Some (str "2F002")) (None);
  mk 236 (str "StatementProhibitedError") [227] (Some (str "2F003")) (None);
  mk 238 (str "ReadingDataProhibitedError") [227] (Some (str "2F004")) (None);
  mk 241 (str "EREError") [88] (Some (str "38000")) (None);
  mk 246 (str "ContainingSQLNotPermittedError") [241] (Some (str "38001")) (None);
  mk 248 (str "ModifyingSQLDataNotPermittedError") [241] (Some (str "38002")) (None);
  mk 250 (str "ProhibitedSQLStatementError") [241] (Some (str "38003")) (None);
  mk 252 (str "ReadingSQLDataNotPermittedError") [241] (Some (str "38004")) (None);
  mk 255 (str "ERIEError") [88] (Some (str "39000")) (None);
  mk 260 (str "InvalidSQLState") [255] (Some (str "39001")) (None);
  mk 262 (str "NullValueNotAllowed") [255] (Some (str "39004")) (None);
  mk 264 (str "TriggerProtocolError") [255] (Some (str "39P01")) (None);
  mk 266 (str "SRFProtocolError") [255] (Some (str "39P02")) (None);
  mk 269 (str "TRError") [147] (Some (str "40000")) (None);
  mk 274 (str "DeadlockError") [269] (Some (str "40P01")) (None);
  mk 276 (str "IntegrityConstraintViolationError") [269] (Some (str "40002")) (None);
  mk 278 (str "SerializationError") [269] (Some (str "40001")) (None);
  mk 280 (str "StatementCompletionUnknownError") [269] (Some (str "40003")) (None);
  mk 284 (str "ITSError") [147] (Some (str "25000")) (None);
  mk 289 (str "ActiveTransactionError") [284] (Some (str "25001")) (None);
  mk 291 (str "BranchAlreadyActiveError") [284] (Some (str "25002")) (None);
  mk 293 (str "BadAccessModeForBranchError") [284] (Some (str "25003")) (None);
  mk 295 (str "BadIsolationForBranchError") [284] (Some (str "25004")) (None);
  mk 297 (str "NoActiveTransactionForBranchError") [284] (Some (str "25005")) (None);
  mk 299 (str "ReadOnlyTransactionError") [284] (Some (str "25006")) (None);
  mk 304 (str "SchemaAndDataStatementsError") [284] (Some (str "25007")) (None);
  mk 309 (str "InconsistentCursorIsolationError") [284] (Some (str "25008")) (None);
  mk 315 (str "NoActiveTransactionError") [284] (Some (str "25P01")) (None);
  mk 317 (str "InFailedTransactionError") [284] (Some (str "25P02")) (None);
  mk 324 (str "SavepointError") [147] (Some (str "3B000")) (None);
  mk 329 (str "InvalidSavepointSpecificationError") [324] (Some (str "3B001")) (None);
  mk 332 (str "TransactionTerminationError") [147] (Some (str "2D000")) (None);
  mk 335 (str "IRError") [88] (Some (str "53000")) (None);
  mk 340 (str "MemoryError") [335] (Some (str "53200")) (None);
  mk 342 (str "DiskFullError") [335] (Some (str "53100")) (None);
  mk 344 (str "TooManyConnectionsError") [335] (Some (str "53300")) (None);
  mk 347 (str "PLEError") [] (Some (str "54000")) (None);
  mk 352 (str "ComplexityOverflowError") [347] (Some (str "54001")) (None);
  mk 354 (str "ColumnOverflowError") [347] (Some (str "54011")) (None);
  mk 356 (str "ArgumentOverflowError") [347] (Some (str "54023")) (None);
  mk 359 (str "ONIPSError") [88] (Some (str "55000")) (None);
  mk 364 (str "ObjectInUseError") [359] (Some (str "55006")) (None);
  mk 366 (str "ImmutableRuntimeParameterError") [359] (Some (str "55P02")) (None);
  mk 368 (str "UnavailableLockError") [359] (Some (str "55P03")) (None);
  mk 372 (str "SEARVError") [88] (Some (str "42000")) (None);
  mk 378 (str "SEARVNameError") [372] (Some (str "42602")) (None);
  mk 380 (str "NameTooLongError") [372] (Some (str "42622")) (None);
  mk 382 (str "ReservedNameError") [372] (Some (str "42939")) (None);
  mk 385 (str "ForeignKeyCreationError") [372] (Some (str "42830")) (None);
  mk 388 (str "InsufficientPrivilegeError") [372] (Some (str "42501")) (None);
  mk 390 (str "GroupingError") [372] (Some (str "42803")) (None);
  mk 393 (str "RecursionError") [372] (Some (str "42P19")) (None);
  mk 395 (str "WindowError") [372] (Some (str "42P20")) (None);
  mk 398 (str "SyntaxError") [372] (Some (str "42601")) (None);
  mk 401 (str "TypeError") [372] (None) (None);
  mk 403 (str "CoercionError") [401] (Some (str "42846")) (None);
  mk 405 (str "TypeMismatchError") [401] (Some (str "42804")) (None);
  mk 407 (str "IndeterminateTypeError") [401] (Some (str "42P18")) (None);
  mk 409 (str "WrongObjectTypeError") [401] (Some (str "42809")) (None);
  mk 412 (str "UndefinedError") [372] (None) (None);
  mk 414 (str "UndefinedColumnError") [412] (Some (str "42703")) (None);
  mk 416 (str "UndefinedFunctionError") [412] (Some (str "42883")) (None);
  mk 418 (str "UndefinedTableError") [412] (Some (str "42P01")) (None);
  mk 420 (str "UndefinedParameterError") [412] (Some (str "42P02")) (None);
  mk 422 (str "UndefinedObjectError") [412] (Some (str "42704")) (None);
  mk 425 (str "DuplicateError") [372] (None) (None);
  mk 427 (str "DuplicateColumnError") [425] (Some (str "42701")) (None);
  mk 429 (str "DuplicateCursorError") [425] (Some (str "42P03")) (None);
  mk 431 (str "DuplicateDatabaseError") [425] (Some (str "42P04")) (None);
  mk 433 (str "DuplicateFunctionError") [425] (Some (str "42723")) (None);
  mk 435 (str "DuplicatePreparedStatementError") [425] (Some (str "42P05")) (None);
  mk 437 (str "DuplicateSchemaError") [425] (Some (str "42P06")) (None);
  mk 439 (str "DuplicateTableError") [425] (Some (str "42P07")) (None);
  mk 441 (str "DuplicateAliasError") [425] (Some (str "42712")) (None);
  mk 443 (str "DuplicateObjectError") [425] (Some (str "42710")) (None);
  mk 446 (str "AmbiguityError") [372] (None) (None);
  mk 448 (str "AmbiguousColumnError") [446] (Some (str "42702")) (None);
  mk 450 (str "AmbiguousFunctionError") [446] (Some (str "42725")) (None);
  mk 452 (str "AmbiguousParameterError") [446] (Some (str "42P08")) (None);
  mk 454 (str "AmbiguousAliasError") [446] (Some (str "42P09")) (None);
  mk 457 (str "ColumnReferenceError") [372] (Some (str "42P10")) (None);
  mk 460 (str "DefinitionError") [372] (None) (None);
  mk 462 (str "ColumnDefinitionError") [460] (Some (str "42611")) (None);
  mk 464 (str "CursorDefinitionError") [460] (Some (str "42P11")) (None);
  mk 466 (str "DatabaseDefinitionError") [460] (Some (str "42P12")) (None);
  mk 468 (str "FunctionDefinitionError") [460] (Some (str "42P13")) (None);
  mk 470 (str "PreparedStatementDefinitionError") [460] (Some (str "42P14")) (None);
  mk 472 (str "SchemaDefinitionError") [460] (Some (str "42P15")) (None);
  mk 474 (str "TableDefinitionError") [460] (Some (str "42P16")) (None);
  mk 476 (str "ObjectDefinitionError") [460] (Some (str "42P17")) (None);
  mk 480 (str "CursorStateError") [88] (Some (str "24000")) (None);
  mk 483 (str "WithCheckOptionError") [88] (Some (str "44000")) (None);
  mk 486 (str "NameError") [88] (None) (None);
  mk 488 (str "CatalogNameError") [486] (Some (str "3D000")) (None);
  mk 490 (str "CursorNameError") [486] (Some (str "34000")) (None);
  mk 492 (str "StatementNameError") [486] (Some (str "26000")) (None);
  mk 494 (str "SchemaNameError") [486] (Some (str "3F000")) (None);
  mk 497 (str "ICVError") [88] (Some (str "23000")) (None);
  mk 502 (str "RestrictError") [497] (Some (str "23001")) (None);
  mk 504 (str "NotNullError") [497] (Some (str "23502")) (None);
  mk 506 (str "ForeignKeyError") [497] (Some (str "23503")) (None);
  mk 508 (str "UniqueError") [497] (Some (str "23505")) (None);
  mk 510 (str "CheckError") [497] (Some (str "23514")) (None);
  mk 514 (str "DataError") [88] (Some (str "22000")) (None);
  mk 517 (str "StringRightTruncationError") [514] (Some (str "22001")) (None);
  mk 519 (str "StringDataLengthError") [514] (Some (str "22026")) (None);
  mk 521 (str "ZeroLengthString") [514] (Some (str "2200F")) (None);
  mk 524 (str "EncodingError") [514] (Some (str "22021")) (None);
  mk 526 (str "ArrayElementError") [514] (Some (str "2202E")) (None);
  mk 528 (str "SpecificTypeMismatch") [514] (Some (str "2200G")) (None);
  mk 531 (str "NullValueNotAllowedError") [514] (Some (str "22004")) (None);
  mk 533 (str "NullValueNoIndicatorParameter") [514] (Some (str "22002")) (None);
  mk 536 (str "ZeroDivisionError") [514] (Some (str "22012")) (None);
  mk 538 (str "FloatingPointError") [514] (Some (str "22P01")) (None);
  mk 540 (str "AssignmentError") [514] (Some (str "22005")) (None);
  mk 542 (str "IndicatorOverflowError") [514] (Some (str "22022")) (None);
  mk 544 (str "BadCopyError") [514] (Some (str "22P04")) (None);
  mk 547 (str "TextRepresentationError") [514] (Some (str "22P02")) (None);
  mk 549 (str "BinaryRepresentationError") [514] (Some (str "22P03")) (None);
  mk 551 (str "UntranslatableCharacterError") [514] (Some (str "22P05")) (None);
  mk 553 (str "NonstandardUseOfEscapeCharacterError") [514] (Some (str "22P06")) (None);
  mk 556 (str "NotXMLError") [514] (Some (str "2200L")) (None);
  mk 558 (str "XMLDocumentError") [514] (Some (str "2200M")) (None);
  mk 560 (str "XMLContentError") [514] (Some (str "2200N")) (None);
  mk 562 (str "XMLCommentError") [514] (Some (str "2200S")) (None);
  mk 564 (str "XMLProcessingInstructionError") [514] (Some (str "2200T")) (None);
  mk 567 (str "DateTimeFormatError") [514] (Some (str "22007")) (None);
  mk 569 (str "TimeZoneDisplacementValueError") [514] (Some (str "22009")) (None);
  mk 571 (str "DateTimeFieldOverflowError") [514] (Some (str "22008")) (None);
  mk 573 (str "IntervalFieldOverflowError") [514] (Some (str "22015")) (None);
  mk 576 (str "LogArgumentError") [514] (Some (str "2201E")) (None);
  mk 578 (str "PowerFunctionArgumentError") [514] (Some (str "2201F")) (None);
  mk 580 (str "WidthBucketFunctionArgumentError") [514] (Some (str "2201G")) (None);
  mk 582 (str "CastCharacterValueError") [514] (Some (str "22018")) (None);
  mk 585 (str "EscapeCharacterError") [514] (Some (str "22019")) (None);
  mk 587 (str "EscapeOctetError") [514] (Some (str "2200D")) (None);
  mk 589 (str "EscapeSequenceError") [514] (Some (str "22025")) (None);
  mk 591 (str "EscapeCharacterConflictError") [514] (Some (str "2200B")) (None);
  mk 593 (str "EscapeCharacterError") [514] (Some (str "2200C")) (None);
  mk 599 (str "SubstringError") [514] (Some (str "22011")) (None);
  mk 601 (str "TrimError") [514] (Some (str "22027")) (None);
  mk 603 (str "IndicatorParameterValueError") [514] (Some (str "22010")) (None);
  mk 606 (str "LimitValueError") [514] (Some (str "2201W")) (Some (str "22020"));
  mk 609 (str "OffsetValueError") [514] (Some (str "2201X")) (None);
  mk 612 (str "ParameterValueError") [514] (Some (str "22023")) (None);
  mk 614 (str "RegularExpressionError") [514] (Some (str "2201B")) (None);
  mk 616 (str "NumericRangeError") [514] (Some (str "22003")) (None);
  mk 618 (str "UnterminatedCStringError") [514] (Some (str "22024")) (None);
  mk 622 (str "InternalError") [88] (Some (str "XX000")) (None);
  mk 624 (str "DataCorruptedError") [622] (Some (str "XX001")) (None);
  mk 626 (str "IndexCorruptedError") [622] (Some (str "XX002")) (None);
  mk 629 (str "SIOError") [88] (Some (str "58000")) (None);
  mk 634 (str "UndefinedFileError") [629] (Some (str "58P01")) (None);
  mk 636 (str "DuplicateFileError") [629] (Some (str "58P02")) (None);
  mk 639 (str "CFError") [88] (Some (str "F0000")) (None);
  mk 644 (str "LockFileExistsError") [639] (Some (str "F0001")) (None);
  mk 647 (str "OIError") [88] (Some (str "57000")) (None);
  mk 652 (str "QueryCanceledError") [647] (Some (str "57014")) (None);
  mk 654 (str "AdminShutdownError") [647; 49] (Some (str "57P01")) (None);
  mk 656 (str "CrashShutdownError") [647; 49] (Some (str "57P02")) (None);
  mk 658 (str "ServerNotReadyError") [647; 49] (Some (str "57P03")) (None);
  mk 664 (str "PLPGSQLError") [88] (Some (str "P0000")) (None);
  mk 669 (str "PLPGSQLRaiseError") [664] (Some (str "P0001")) (None);
  mk 674 (str "PLPGSQLNoDataFoundError") [664] (Some (str "P0002")) (None);
  mk 676 (str "PLPGSQLTooManyRowsError") [664] (Some (str "P0003")) (None)
].
