(** * gen.record_batch.go as terms of GoLang.v

    Written by tools/go_source.py, which see. *)
From Coq Require Import String.
From Verif Require Import GoBase GoLang.
Local Open Scope string_scope.
Local Open Scope list_scope.
Local Open Scope Z_scope.

(** gen.record_batch.go:38 *)
Definition go_MapHeader_Get : func := mkFunc [("m", GNamed "MapHeader"); ("key", GString)] [GString; GBool]
  [SDefine ["v"; "ok"] [(EIndex (EVar "m") (EVar "key"))];
   SReturn [(EVar "v"); (EVar "ok")]].
(** gen.record_batch.go:44 *)
Definition go_MapHeader_Range : func := mkFunc [("m", GNamed "MapHeader"); ("fn", GFunc)] []
  [SRange "k" "v" (EVar "m")
     [SExpr (EApply (EVar "fn") [(EVar "k"); (EVar "v")])]].
(** gen.record_batch.go:61 *)
Definition go_Message_Size : func := mkFunc [("m", GNamed "Message"); ("version", GInt I16)] [GInt I32]
  [SVar "sz" (Some (GInt I32)) None;
   SReturn [(EVar "sz")]].
(** gen.record_batch.go:84 *)
Definition go_RecordBatch_Size : func := mkFunc [("r", GNamed "RecordBatch"); ("version", GInt I16)] [GInt I32]
  [SVar "sz" (Some (GInt I32)) None;
   SOp (EVar "sz") Add (EGlobal "sizeof.Int64");
   SOp (EVar "sz") Add (EGlobal "sizeof.Int32");
   SOp (EVar "sz") Add (EGlobal "sizeof.Int32");
   SOp (EVar "sz") Add (EGlobal "sizeof.Int8");
   SOp (EVar "sz") Add (EGlobal "sizeof.Int32");
   SOp (EVar "sz") Add (EGlobal "sizeof.Int16");
   SOp (EVar "sz") Add (EGlobal "sizeof.Int32");
   SOp (EVar "sz") Add (EGlobal "sizeof.Int64");
   SOp (EVar "sz") Add (EGlobal "sizeof.Int64");
   SOp (EVar "sz") Add (EGlobal "sizeof.Int64");
   SOp (EVar "sz") Add (EGlobal "sizeof.Int16");
   SOp (EVar "sz") Add (EGlobal "sizeof.Int32");
   SRange "_" "msg" (EField (EVar "r") "Records")
     [SOp (EVar "sz") Add (ECall "kafka.sizeofMessage" [(EVar "msg"); (EVar "version"); (EField (EVar "r") "BaseOffset"); (EField (EVar "r") "FirstTimestamp")])];
   SReturn [(EVar "sz")]].
(** gen.record_batch.go:106 *)
Definition go_RecordBatch_Encode : func := mkFunc [("r", GNamed "RecordBatch"); ("encoder", GPtr (GNamed "message.Encoder")); ("version", GInt I16)] []
  [SExpr (EMethod (EVar "encoder") "PutInt64" [(EField (EVar "r") "BaseOffset")]);
   SExpr (EMethod (EVar "encoder") "PutInt32" [(EField (EVar "r") "BatchLength")]);
   SExpr (EMethod (EVar "encoder") "PutInt32" [(EField (EVar "r") "PartitionLeaderEpoch")]);
   SExpr (EMethod (EVar "encoder") "PutInt8" [(EGlobal "kafka.magic")]);
   SExpr (EMethod (EVar "encoder") "PutInt32" [(EField (EVar "r") "CRC")]);
   SExpr (EMethod (EVar "encoder") "PutInt16" [(EField (EVar "r") "Attributes")]);
   SExpr (EMethod (EVar "encoder") "PutInt32" [(EField (EVar "r") "LastOffsetDelta")]);
   SExpr (EMethod (EVar "encoder") "PutInt64" [(EField (EVar "r") "FirstTimestamp")]);
   SExpr (EMethod (EVar "encoder") "PutInt64" [(EField (EVar "r") "MaxTimestamp")]);
   SExpr (EMethod (EVar "encoder") "PutInt64" [(EField (EVar "r") "ProducerId")]);
   SExpr (EMethod (EVar "encoder") "PutInt16" [(EField (EVar "r") "ProducerEpoch")]);
   SExpr (EMethod (EVar "encoder") "PutInt32" [(EField (EVar "r") "BaseSequence")]);
   SRange "_" "m" (EField (EVar "r") "Records")
     [SExpr (ECall "kafka.encodeMessage" [(EVar "m"); (EVar "encoder"); (EVar "version"); (EField (EVar "r") "FirstTimestamp")])]].
(** gen.record_batch.go:126 *)
Definition go_kafka_encodeMessage : func := mkFunc [("m", GNamed "Message"); ("encoder", GPtr (GNamed "message.Encoder")); ("version", GInt I16); ("firstTimestamp", GInt I64)] []
  [SExpr (EMethod (EVar "encoder") "PutVarInt" [(EConv (GInt I64) (EMethod (EVar "m") "Size" [(EVar "version")]))]);
   SExpr (EMethod (EVar "encoder") "PutInt8" [(EInt 0)]);
   SExpr (EMethod (EVar "encoder") "PutVarInt" [(EBin Sub (EMethod (EField (EVar "m") "Timestamp") "Unix" []) (EVar "firstTimestamp"))]);
   SExpr (EMethod (EVar "encoder") "PutVarInt" [(EInt 0)]);
   SExpr (EMethod (EVar "encoder") "PutVarBytes" [(EField (EVar "m") "Key")]);
   SExpr (EMethod (EVar "encoder") "PutVarBytes" [(EField (EVar "m") "Value")]);
   SExpr (EMethod (EField (EVar "m") "Header") "Range" [(EField (EVar "encoder") "PutRecordHeader")])].
(** gen.record_batch.go:136 *)
Definition go_kafka_sizeofMessage : func := mkFunc [("m", GNamed "Message"); ("version", GInt I16); ("baseOffset", GInt I64); ("firstTimestamp", GInt I64)] [GInt I32]
  [SVar "sz" (Some (GInt I32)) None;
   SOp (EVar "sz") Add (EGlobal "sizeof.Int8");
   SOp (EVar "sz") Add (ECall "sizeof.VarInt" [(EBin Sub (EMethod (EField (EVar "m") "Timestamp") "Unix" []) (EVar "firstTimestamp"))]);
   SOp (EVar "sz") Add (ECall "sizeof.VarInt" [(EBin Sub (EField (EVar "m") "Offset") (EVar "baseOffset"))]);
   SOp (EVar "sz") Add (ECall "sizeof.VarInt" [(EConv (GInt I64) (ELen (EField (EVar "m") "Key")))]);
   SOp (EVar "sz") Add (ECall "sizeof.Bytes" [(EField (EVar "m") "Key")]);
   SOp (EVar "sz") Add (ECall "sizeof.VarInt" [(EConv (GInt I64) (ELen (EField (EVar "m") "Value")))]);
   SOp (EVar "sz") Add (ECall "sizeof.Bytes" [(EField (EVar "m") "Value")]);
   SIf [] (EBin And (EBin Ge (EVar "version") (EGlobal "kafka.magic")) (EBin Ne (EField (EVar "m") "Header") ENil))
     [SExpr (EMethod (EField (EVar "m") "Header") "Range" [(EFunc "kafka.sizeofMessage.func1")])]
     [];
   SReturn [(EVar "sz")]].
(** gen.record_batch.go:146 *)
Definition go_kafka_sizeofMessage_func1 : func := mkFunc [("key", GString); ("value", GString)] []
  [SOp (EVar "sz") Add (ECall "sizeof.VarString" [(EVar "key")]);
   SOp (EVar "sz") Add (ECall "sizeof.VarString" [(EVar "value")])].

Definition records_source : package := mkPackage
  [("Message", [("Topic", GString); ("Partition", GInt I32); ("Offset", GInt I64); ("Key", GSlice (GInt U8)); ("Value", GSlice (GInt U8)); ("Timestamp", GNamed "time.Time"); ("Header", GNamed "Header")]);
   ("RecordBatch", [("BaseOffset", GInt I64); ("BatchLength", GInt I32); ("PartitionLeaderEpoch", GInt I32); ("Magic", GInt I8); ("CRC", GInt I32); ("Attributes", GInt I16); ("LastOffsetDelta", GInt I32); ("FirstTimestamp", GInt I64); ("MaxTimestamp", GInt I64); ("ProducerId", GInt I64); ("ProducerEpoch", GInt I16); ("BaseSequence", GInt I32); ("Records", GSlice (GNamed "Message"))])]
  [("kafka.magic", (None, (EInt 2)))]
  [("MapHeader.Get", go_MapHeader_Get);
   ("MapHeader.Range", go_MapHeader_Range);
   ("Message.Size", go_Message_Size);
   ("RecordBatch.Size", go_RecordBatch_Size);
   ("RecordBatch.Encode", go_RecordBatch_Encode);
   ("kafka.encodeMessage", go_kafka_encodeMessage);
   ("kafka.sizeofMessage", go_kafka_sizeofMessage);
   ("kafka.sizeofMessage.func1", go_kafka_sizeofMessage_func1)].
